(** * PropsFetch: C58 *)

From Verif Require Import PyBase PyFacts FetchModel.
Local Open Scope Z_scope.
Local Open Scope io_scope.

(** Every file of f is in f', with the same content. *)
Definition files_kept (f f' : fs) : Prop := forall q c, dget q (fs_files f) = Some c -> dget q (fs_files f') = Some c.

Lemma dset_get_id {V} k (v : V) d : dget k d = Some v -> dset k v d = d.
Proof.
  induction d as [|[k' v'] r IH]; cbn [dget dset]; [discriminate|]. destruct (str_eqb k k') eqn:E; intro H; [apply some_inj in H; subst v'; reflexivity|]. rewrite (IH H). reflexivity.
Qed.
Lemma dset_dset_same {V} k (v v' : V) d : dset k v (dset k v' d) = dset k v d.
Proof.
  induction d as [|[k' w] r IH]; cbn [dset]; [rewrite str_eqb_refl; reflexivity|]. destruct (str_eqb k k') eqn:E; cbn [dset]; rewrite E; [reflexivity|]. rewrite IH. reflexivity.
Qed.

Section Facts.
Variable real : str -> str.
Variable above : str -> list str.
Variable en : env.
Notation after := (after_steps real above).

Lemma after_app s1 s2 f : after (s1 ++ s2) f = after s2 (after s1 f).
Proof. apply fold_left_app. Qed.

(** ** Only new files are touched *)
Definition touches_new (f0 : fs) (s : step) : Prop := match s with SOpen p | SByte p _ => dget (real p) (fs_files f0) = None | _ => True end.
Definition Inv (f0 : fs) (w : world) : Prop := w_fs w = after (w_log w) f0 /\ Forall (touches_new f0) (w_log w).

Lemma touch_kept f0 ss : Forall (touches_new f0) ss -> files_kept f0 (after ss f0).
Proof.
  intro H. assert (G : forall f, files_kept f0 f -> files_kept f0 (after ss f)); [|apply G; intros q c E; exact E].
  induction H as [|s ss Hs H IH]; intros f K; [exact K|]. cbn [after_steps fold_left]. apply IH. intros q c E. specialize (K q c E). destruct s; cbn [do_step fs_files]; auto; cbn [touches_new] in Hs; rewrite dget_dset_other; auto; intros ->; congruence.
Qed.
Lemma Forall_firstn {X} (P : X -> Prop) k l : Forall P l -> Forall P (firstn k l).
Proof. intro H. revert k. induction H; intros [|k]; cbn [firstn]; constructor; auto. Qed.

Definition keeps {A} (P : world -> Prop) (x : io A) : Prop := forall w, P w -> P (snd (x w)).
Lemma keeps_ret {A} P (a : A) : keeps P (ret a). Proof. intros w H. exact H. Qed.
Lemma keeps_fail {A} P e : keeps P (@fail A e). Proof. intros w H. exact H. Qed.
Lemma keeps_bind {A B} P (x : io A) (f : A -> io B) : keeps P x -> (forall a, keeps P (f a)) -> keeps P (ibind x f).
Proof. intros Hx Hf w H. unfold ibind. specialize (Hx w H). destruct (x w) as [[a|e] w']; [apply Hf, Hx|exact Hx]. Qed.
Lemma keeps_exists P p : keeps P (path_exists real p). Proof. intros w H. exact H. Qed.
Lemma keeps_key {A} P (o : option A) : keeps P (key o). Proof. intros w H. destruct o; exact H. Qed.
Lemma keeps_index {A} P i (l : list A) : keeps P (at_index i l). Proof. intros w H. unfold at_index. destruct (nth_error l i); exact H. Qed.

Lemma inv_step f0 w s : Inv f0 w -> touches_new f0 s -> Inv f0 (World (do_step real above s (w_fs w)) (w_log w ++ [s])).
Proof.
  intros (E&F) Hs. split; cbn [w_fs w_log]; [rewrite after_app, <- E; reflexivity|]. apply Forall_app. split; [exact F|]. constructor; [exact Hs|constructor].
Qed.
Lemma keeps_perform f0 s : touches_new f0 s -> keeps (Inv f0) (perform real above en s).
Proof. intros Hs w H. unfold perform. destruct (e_refuses en _); [exact H|]. apply inv_step; assumption. Qed.
Lemma keeps_request f0 url : keeps (Inv f0) (requests_get en url).
Proof.
  intros w H. unfold requests_get. apply (inv_step f0 w (SRequest url)) in H; [|exact I]. cbn [do_step] in H. destruct (e_reply en _ _); exact H.
Qed.
Lemma keeps_makedirs f0 d : keeps (Inv f0) (makedirs real above en d).
Proof. unfold makedirs. destruct d; [apply keeps_fail|]. apply keeps_bind; [apply keeps_exists|]. intros []; [apply keeps_fail|]. apply keeps_perform. exact I. Qed.
Lemma keeps_write f0 p content : dget (real p) (fs_files f0) = None -> keeps (Inv f0) (write_all real above en p content).
Proof. intro H. induction content as [|b r IH]; [apply keeps_ret|]. cbn [write_all]. apply keeps_bind; [apply keeps_perform; exact H|]. intros _. exact IH. Qed.

Lemma inv_files f0 w q : Inv f0 w -> dget q (fs_files (w_fs w)) = None -> dget q (fs_files f0) = None.
Proof. intros (E&F) H. destruct (dget q (fs_files f0)) as [c|] eqn:Eq; [|reflexivity]. apply touch_kept in F. specialize (F q c Eq). rewrite <- E in F. congruence. Qed.

Lemma exists_false f p : exists_in real f p = false -> p <> [] -> dget (real p) (fs_files f) = None.
Proof. intros H Hp. unfold exists_in in H. destruct p; [congruence|]. apply Bool.orb_false_iff in H as (H&_). unfold dmem in H. destruct (dget _ _); [discriminate|reflexivity]. Qed.

Lemma keeps_fetch_url f0 url subdir lp : dget (real lp) (fs_files f0) = None -> keeps (Inv f0) (fetch_url_to_subdir real above en url subdir lp).
Proof.
  intro H. unfold fetch_url_to_subdir. destruct (_ || _ || _); [apply keeps_fail|]. apply keeps_bind; [apply keeps_request|]. intros [st c]. cbn [fst snd]. destruct (st =? 200); [|apply keeps_ret].
  apply keeps_bind; [apply keeps_exists|]. intro there. apply keeps_bind; [destruct there; [apply keeps_ret|apply keeps_makedirs]|]. intros _. apply keeps_bind; [apply keeps_exists|]. intros []; [|apply keeps_fail].
  apply keeps_bind; [|intros _; apply keeps_bind; [apply keeps_write; exact H|intros _; apply keeps_ret]].
  intros w Hw. unfold open_wb. destruct (memb _ _); [exact Hw|]. apply (keeps_perform f0 (SOpen lp) H w Hw).
Qed.
Lemma fetch_url_guard url subdir w : fetch_url_to_subdir real above en url subdir [] w = (Err GenericException, w).
Proof. unfold fetch_url_to_subdir. cbn [nonempty negb]. rewrite Bool.orb_true_r. reflexivity. Qed.
Lemma keeps_fetch_if f0 subdir lp gu ud response : (forall w, gu w = (fst (gu w), w)) -> keeps (Inv f0) (fetch_if_missing real above en subdir lp gu ud response).
Proof.
  intros Hg w Hw. unfold fetch_if_missing, ibind at 1, path_exists. destruct (exists_in real (w_fs w) lp) eqn:E; [exact Hw|].
  unfold ibind at 1. rewrite Hg. destruct (fst (gu w)) as [url|e]; [|exact Hw]. cbn [snd].
  refine (keeps_bind _ _ _ (keeps_key _ _) _ w Hw). intro metas. refine (keeps_bind _ _ _ (keeps_index _ _ _) _). intros _. refine (keeps_bind _ _ _ (keeps_key _ _) _). intros _. refine (keeps_bind _ _ _ _ _); [|intro r; apply keeps_ret].
  destruct lp as [|c lp]; [intros w' Hw'; rewrite fetch_url_guard; exact Hw'|]. apply keeps_fetch_url. apply (inv_files f0 w _ Hw). apply exists_false in E; [exact E|discriminate].
Qed.
Lemma keeps_urls f0 subdir ud lps urls : forall i response, keeps (Inv f0) (fetch_urls real above en subdir ud lps i urls response).
Proof.
  induction urls as [|x r IH]; intros i response; cbn [fetch_urls]; [apply keeps_ret|]. apply keeps_bind; [apply keeps_index|]. intro lp. apply keeps_bind; [apply keeps_fetch_if; reflexivity|]. intro r'. apply IH.
Qed.
Lemma keeps_entries f0 subdir uds : forall lps lp response, keeps (Inv f0) (fetch_entries real above en subdir uds lps lp response).
Proof.
  induction uds as [|ud r IH]; intros lps lp response; cbn [fetch_entries]; [apply keeps_ret|]. apply keeps_bind.
  - destruct (ud_localcopies ud); [apply keeps_ret|]. apply keeps_bind; [apply keeps_key|]. intro c. apply keeps_ret.
  - intros [lps' lp']. cbn [fst snd]. apply keeps_bind; [|intro; apply IH]. destruct (ud_urls ud); [apply keeps_urls|]. destruct lp'; [|apply keeps_fail]. apply keeps_fetch_if. intro w. destruct (ud_url ud); reflexivity.
Qed.
Lemma inv0 f : Inv f (World f []). Proof. split; [reflexivity|constructor]. Qed.
Lemma run_inv spec f res w : run (fetch_web_items real above en spec) f = (res, w) -> Inv f w.
Proof.
  intro H. assert (K : keeps (Inv f) (fetch_web_items real above en spec)).
  { unfold fetch_web_items. apply keeps_bind; [apply keeps_exists|]. intros there. apply keeps_bind; [destruct there; [apply keeps_ret|apply keeps_makedirs]|]. intros _. apply keeps_entries. }
  specialize (K _ (inv0 f)). unfold run in H. rewrite H in K. exact K.
Qed.
End Facts.

(** ** C58 *)
(** Whatever the servers answer and wherever the run stops or fails, the files that were there keep their content; and the
    files after a complete run are those its steps produce. *)
Theorem C58_existing_files_kept : forall real above en spec f res w, run (fetch_web_items real above en spec) f = (res, w) ->
  w_fs w = after_steps real above (w_log w) f /\ forall k, files_kept f (after_steps real above (firstn k (w_log w)) f).
Proof.
  intros real above en spec f res w H. apply run_inv in H as (E&F). split; [exact E|]. intro k. apply touch_kept. apply Forall_firstn, F.
Qed.
Print Assumptions C58_existing_files_kept.

(** Any history of runs of any fetchspecs, each against its own servers and stopped after any number of steps. *)
Inductive history (real : str -> str) (above : str -> list str) : fs -> fs -> Prop :=
| no_runs f : history real above f f
| one_more f f1 en spec k res w : history real above f f1 -> run (fetch_web_items real above en spec) f1 = (res, w) ->
    history real above f (after_steps real above (firstn k (w_log w)) f1).
Theorem C58_history : forall real above f f', history real above f f' -> files_kept f f'.
Proof.
  induction 1 as [f|f f1 en spec k res w H IH R]; [intros q c E; exact E|]. intros q c E. apply IH in E. apply C58_existing_files_kept in R as (_&R). apply (R k q c E).
Qed.
Print Assumptions C58_history.

(** ** A second run *)
Section Again.
Variable real : str -> str.
Variable above : str -> list str.
Variables en en2 : env.
Hypothesis all_200 : forall n url st c, e_reply en n url = Some (st, c) -> st = 200.

Definition grows (f f' : fs) : Prop := forall p, exists_in real f p = true -> exists_in real f' p = true.
Definition mono {A} (x : io A) : Prop := forall w, grows (w_fs w) (w_fs (snd (x w))).
Lemma grows_refl f : grows f f. Proof. intros p H. exact H. Qed.
Lemma grows_trans f g h : grows f g -> grows g h -> grows f h. Proof. intros H1 H2 p H. apply H2, H1, H. Qed.
Lemma mono_bind {A B} (x : io A) (f : A -> io B) : mono x -> (forall a, mono (f a)) -> mono (ibind x f).
Proof. intros Hx Hf w. unfold ibind. specialize (Hx w). destruct (x w) as [[a|e] w']; [|exact Hx]. apply (grows_trans _ _ _ Hx). apply Hf. Qed.
Lemma mono_pure {A} (x : io A) : (forall w, snd (x w) = w) -> mono x. Proof. intros H w. rewrite H. apply grows_refl. Qed.
Lemma mono_step s f : grows f (do_step real above s f).
Proof.
  intros p H. unfold exists_in in *. destruct p as [|c p]; [discriminate|]. apply Bool.orb_true_iff in H. apply Bool.orb_true_iff. destruct s as [d|url|q|q b]; cbn [do_step fs_files fs_dirs]; [|exact H| |].
  - destruct H as [H|H]; [left; exact H|right]. apply memb_In. apply memb_In in H. right. apply in_or_app. right. exact H.
  - destruct H as [H|H]; [left|right; exact H]. unfold dmem in *. rewrite dget_dset. destruct (str_eqb _ _); [reflexivity|exact H].
  - destruct H as [H|H]; [left|right; exact H]. unfold dmem in *. rewrite dget_dset. destruct (str_eqb _ _); [reflexivity|exact H].
Qed.
Lemma mono_perform s : mono (perform real above en s).
Proof. intro w. unfold perform. destruct (e_refuses en _); [apply grows_refl|apply mono_step]. Qed.
Lemma mono_write p content : mono (write_all real above en p content).
Proof. induction content as [|b r IH]; [apply mono_pure; reflexivity|]. cbn [write_all]. apply mono_bind; [apply mono_perform|intros _; exact IH]. Qed.
Lemma mono_makedirs d : mono (makedirs real above en d).
Proof. destruct d; [apply mono_pure; reflexivity|]. cbn [makedirs]. apply mono_bind; [apply mono_pure; reflexivity|]. intros []; [apply mono_pure; reflexivity|apply mono_perform]. Qed.
Lemma mono_open p : mono (open_wb real above en p).
Proof. intro w. unfold open_wb. destruct (memb _ _); [apply grows_refl|]. apply mono_perform. Qed.
Lemma mono_fetch_url url subdir lp : mono (fetch_url_to_subdir real above en url subdir lp).
Proof.
  unfold fetch_url_to_subdir. destruct (_ || _ || _); [apply mono_pure; reflexivity|]. apply mono_bind; [intro w; unfold requests_get; destruct (e_reply en _ _); apply grows_refl|]. intros [st c]. cbn [fst snd].
  destruct (st =? 200); [|apply mono_pure; reflexivity]. apply mono_bind; [apply mono_pure; reflexivity|]. intros there. apply mono_bind; [destruct there; [apply mono_pure; reflexivity|apply mono_makedirs]|]. intros _.
  apply mono_bind; [apply mono_pure; reflexivity|]. intros []; [|apply mono_pure; reflexivity]. apply mono_bind; [apply mono_open|]. intros _. apply mono_bind; [apply mono_write|]. intros _. apply mono_pure; reflexivity.
Qed.
Lemma mono_fetch_if subdir lp gu ud response : (forall w, gu w = (fst (gu w), w)) -> mono (fetch_if_missing real above en subdir lp gu ud response).
Proof.
  intro Hg. unfold fetch_if_missing. apply mono_bind; [apply mono_pure; reflexivity|]. intros []; [apply mono_pure; reflexivity|]. apply mono_bind; [apply mono_pure; intro w; rewrite Hg; reflexivity|]. intro url.
  apply mono_bind; [apply mono_pure; intro w; destruct (ud_metaurls ud); reflexivity|]. intro metas. apply mono_bind; [apply mono_pure; intro w; unfold at_index; destruct (nth_error metas 0); reflexivity|]. intros _.
  apply mono_bind; [apply mono_pure; intro w; destruct (ud_desc ud); reflexivity|]. intros _. apply mono_bind; [apply mono_fetch_url|]. intro r. apply mono_pure; reflexivity.
Qed.
Lemma mono_urls subdir ud lps urls : forall i response, mono (fetch_urls real above en subdir ud lps i urls response).
Proof.
  induction urls as [|x r IH]; intros i response; cbn [fetch_urls]; [apply mono_pure; reflexivity|]. apply mono_bind; [apply mono_pure; intro w; unfold at_index; destruct (nth_error lps i); reflexivity|]. intro lp.
  apply mono_bind; [apply mono_fetch_if; reflexivity|]. intro r'. apply IH.
Qed.
Lemma mono_entries subdir uds : forall lps lp response, mono (fetch_entries real above en subdir uds lps lp response).
Proof.
  induction uds as [|ud r IH]; intros lps lp response; cbn [fetch_entries]; [apply mono_pure; reflexivity|]. apply mono_bind.
  - destruct (ud_localcopies ud); [apply mono_pure; reflexivity|]. apply mono_bind; [apply mono_pure; intro w; destruct (ud_localcopy ud); reflexivity|]. intro c. apply mono_pure; reflexivity.
  - intros [lps' lp']. cbn [fst snd]. apply mono_bind; [|intro; apply IH]. destruct (ud_urls ud); [apply mono_urls|]. destruct lp'; [|apply mono_pure; reflexivity]. apply mono_fetch_if. intro w. destruct (ud_url ud); reflexivity.
Qed.

Lemma ibind_ok {A B} (x : io A) (f : A -> io B) w b w' : ibind x f w = (Ok b, w') -> exists a w1, x w = (Ok a, w1) /\ f a w1 = (Ok b, w').
Proof. unfold ibind. destruct (x w) as [[a|e] w1]; [intro H; exists a, w1; auto|discriminate]. Qed.

(** A download with reply 200 leaves the complete reply in the file. *)
Lemma write_ok p content w w' : write_all real above en p content w = (Ok tt, w') ->
  w_log w' = w_log w ++ map (SByte p) content /\ fs_dirs (w_fs w') = fs_dirs (w_fs w) /\
  (forall x, dget (real p) (fs_files (w_fs w)) = Some x -> fs_files (w_fs w') = dset (real p) (x ++ content) (fs_files (w_fs w))).
Proof.
  revert w. induction content as [|b r IH]; intros w H.
  - cbn [write_all ret] in H. injection H as <-. cbn [map]. rewrite app_nil_r. split; [reflexivity|]. split; [reflexivity|]. intros x E. rewrite app_nil_r. symmetry. apply dset_get_id. exact E.
  - cbn [write_all] in H. apply ibind_ok in H as ([]&w1&H1&H). unfold perform in H1. destruct (e_refuses en _); [discriminate|]. injection H1 as <-. apply IH in H as (L&D&F). cbn [w_log w_fs do_step fs_dirs fs_files] in *.
    split; [rewrite L, <- app_assoc; reflexivity|]. split; [exact D|]. intros x E. rewrite E in F. rewrite (F (x ++ [b])) by apply dget_dset_same. rewrite dset_dset_same, <- app_assoc. reflexivity.
Qed.
Lemma fetch_url_ok url subdir lp w r w' : fetch_url_to_subdir real above en url subdir lp w = (Ok r, w') ->
  e_reply en (length (w_log w)) url = Some r /\ lp <> [] /\ url <> [] /\
  (fst r = 200 -> exists mk, (mk = [] \/ (mk = [SMkdirs (dirname lp)] /\ exists_in real (w_fs w) (dirname lp) = false)) /\
     w_log w' = w_log w ++ SRequest url :: mk ++ SOpen lp :: map (SByte lp) (snd r) /\
     fs_files (w_fs w') = dset (real lp) (snd r) (fs_files (w_fs w)) /\
     fs_dirs (w_fs w') = fs_dirs (after_steps real above mk (w_fs w))) /\
  (fst r <> 200 -> w' = World (w_fs w) (w_log w ++ [SRequest url])).
Proof.
  unfold fetch_url_to_subdir. destruct url as [|u0 url]; [cbn [nonempty negb orb]; discriminate|]. destruct lp as [|l0 lp]; [cbn [nonempty negb]; rewrite Bool.orb_true_r; discriminate|].
  destruct subdir as [|s0 subdir]; [cbn [nonempty negb orb]; discriminate|]. cbn [nonempty negb orb]. set (url' := u0 :: url). set (lp' := l0 :: lp). intro H.
  apply ibind_ok in H as ([st c]&w1&H1&H). unfold requests_get in H1. destruct (e_reply en (length (w_log w)) url') as [r0|] eqn:Er; [|discriminate]. injection H1 as -> <-. cbn [fst snd] in H.
  destruct (Z.eqb_spec st 200) as [E2|N2].
  - apply ibind_ok in H as (there&w2&H2&H). unfold path_exists in H2. injection H2 as <- <-. apply ibind_ok in H as ([]&w3&H3&H). cbn [w_fs] in H3.
    apply ibind_ok in H as (there&w4&H4&H). unfold path_exists in H4. injection H4 as <- <-. destruct (exists_in real (w_fs w3) (dirname lp')) eqn:Ed; [|discriminate].
    apply ibind_ok in H as ([]&w5&H5&H). apply ibind_ok in H as ([]&w6&H6&H). unfold ret in H. injection H as <- <-. cbn [fst snd].
    split; [reflexivity|]. split; [discriminate|]. split; [discriminate|]. split; [intros _|congruence].
    unfold open_wb in H5. destruct (memb (real lp') (fs_dirs (w_fs w3))); [discriminate|]. unfold perform in H5. destruct (e_refuses en _); [discriminate|]. injection H5 as <-.
    apply write_ok in H6 as (L&D&F). cbn [w_log w_fs do_step fs_dirs fs_files] in *. specialize (F [] (dget_dset_same _ _ _)). rewrite dset_dset_same in F. cbn [app] in F.
    assert (M : exists mk, (mk = [] \/ (mk = [SMkdirs (dirname lp')] /\ exists_in real (w_fs w) (dirname lp') = false)) /\ w_log w3 = w_log w ++ SRequest url' :: mk /\ w_fs w3 = after_steps real above mk (w_fs w)).
    { destruct (exists_in real (w_fs w) (dirname lp')) eqn:Ee.
      - unfold ret in H3. injection H3 as <-. exists []. auto.
      - exists [SMkdirs (dirname lp')]. split; [right; auto|]. unfold makedirs in H3. destruct (dirname lp') as [|d0 d] eqn:Edd; [discriminate|]. apply ibind_ok in H3 as (e&w4&H4&H3). unfold path_exists in H4. injection H4 as Ex <-. cbn [w_fs] in Ex. change (exists_in real (w_fs w) (d0 :: d) = e) in Ex. rewrite Ee in Ex. subst e.
        unfold perform in H3. destruct (e_refuses en _); [discriminate|]. injection H3 as <-. cbn [w_log w_fs]. split; [rewrite <- app_assoc; reflexivity|reflexivity]. }
    destruct M as (mk&Hmk&Lm&Fm). exists mk. split; [exact Hmk|]. split; [rewrite L, Lm; repeat (rewrite <- ?app_assoc; cbn [app]); reflexivity|].
    split; [rewrite F, Fm|rewrite D, Fm; reflexivity]. destruct Hmk as [->|(->&_)]; reflexivity.
  - unfold ret in H. injection H as <- <-. cbn [fst snd]. split; [reflexivity|]. split; [discriminate|]. split; [discriminate|]. split; [congruence|]. reflexivity.
Qed.

Lemma fetch_if_again subdir lp gu gu2 ud response r w w' : fetch_if_missing real above en subdir lp gu ud response w = (Ok r, w') -> (forall w, gu w = (fst (gu w), w)) ->
  forall resp2 w2, grows (w_fs w') (w_fs w2) -> fetch_if_missing real above en2 subdir lp gu2 ud resp2 w2 = (Ok resp2, w2).
Proof.
  intros H Hg resp2 w2 G. assert (E : exists_in real (w_fs w') lp = true).
  { unfold fetch_if_missing in H. apply ibind_ok in H as (there&w1&H1&H). unfold path_exists in H1. injection H1 as <- <-. destruct (exists_in real (w_fs w) lp) eqn:E; [unfold ret in H; injection H as _ <-; exact E|].
    apply ibind_ok in H as (url&w1&H1&H). rewrite Hg in H1. injection H1 as _ <-. apply ibind_ok in H as (metas&w1&H1&H). assert (w1 = w) by (destruct (ud_metaurls ud); [injection H1 as _ <-; reflexivity|discriminate]). subst w1.
    apply ibind_ok in H as (m0&w1&H2&H). assert (w1 = w) by (unfold at_index in H2; destruct (nth_error metas 0); [injection H2 as _ <-; reflexivity|discriminate]). subst w1.
    apply ibind_ok in H as (d&w1&H3&H). assert (w1 = w) by (destruct (ud_desc ud); [injection H3 as _ <-; reflexivity|discriminate]). subst w1.
    apply ibind_ok in H as (rr&w1&H4&H). unfold ret in H. injection H as _ <-. apply fetch_url_ok in H4 as (Er&Hl&_&H4&_). destruct rr as [st c]. destruct (H4 (all_200 _ _ _ _ Er)) as (mk&_&_&F&_).
    unfold exists_in. destruct lp; [congruence|]. apply Bool.orb_true_iff. left. unfold dmem. rewrite F, dget_dset_same. reflexivity. }
  unfold fetch_if_missing, ibind at 1, path_exists. rewrite (G _ E). reflexivity.
Qed.
Lemma urls_again subdir ud lps urls : forall i response r w w', fetch_urls real above en subdir ud lps i urls response w = (Ok r, w') ->
  forall resp2 w2, grows (w_fs w') (w_fs w2) -> fetch_urls real above en2 subdir ud lps i urls resp2 w2 = (Ok resp2, w2).
Proof.
  induction urls as [|x rest IH]; intros i response r w w' H resp2 w2 G; [reflexivity|]. cbn [fetch_urls] in *. apply ibind_ok in H as (lp&w1&H1&H). apply ibind_ok in H as (r1&w3&H2&H).
  unfold ibind at 1. unfold at_index in *. destruct (nth_error lps i) as [lp'|]; [|discriminate]. injection H1 as -> <-. cbn [ret].
  pose proof (mono_urls subdir ud lps rest (S i) r1 w3) as M. rewrite H in M. cbn [snd] in M.
  unfold ibind. cbn [ret]. rewrite (fetch_if_again _ _ _ (ret x) _ _ _ _ _ H2 (fun _ => eq_refl) resp2 w2 (grows_trans _ _ _ M G)). apply (IH _ _ _ _ _ H resp2 w2 G).
Qed.
Lemma entries_again subdir uds : forall lps lp response r w w', fetch_entries real above en subdir uds lps lp response w = (Ok r, w') ->
  forall resp2 w2, grows (w_fs w') (w_fs w2) -> fetch_entries real above en2 subdir uds lps lp resp2 w2 = (Ok resp2, w2).
Proof.
  induction uds as [|ud rest IH]; intros lps lp response r w w' H resp2 w2 G; [reflexivity|]. cbn [fetch_entries] in *. apply ibind_ok in H as ([lps' lp']&w1&H1&H). apply ibind_ok in H as (r1&w3&H2&H). cbn [fst snd] in *.
  set (paths := match ud_localcopies ud with Some copies => _ | None => _ end) in *. assert (P : forall w0, paths w0 = (Ok (lps', lp'), w0)).
  { subst paths. destruct (ud_localcopies ud); [unfold ret in *; injection H1 as <- <- <-; reflexivity|]. destruct (ud_localcopy ud); [|discriminate]. unfold ibind, key, ret in *. injection H1 as <- <- <-. reflexivity. }
  clearbody paths. rewrite P in H1. injection H1 as <-. unfold ibind at 1. rewrite P. cbn [fst snd].
  pose proof (mono_entries subdir rest lps' lp' r1 w3) as M. rewrite H in M. cbn [snd] in M. unfold ibind.
  destruct (ud_urls ud) as [urls|].
  - rewrite (urls_again _ _ _ _ _ _ _ _ _ H2 resp2 w2 (grows_trans _ _ _ M G)). apply (IH _ _ _ _ _ _ H resp2 w2 G).
  - destruct lp' as [lp'|]; [|discriminate]. rewrite (fetch_if_again _ _ _ (key (ud_url ud)) _ _ _ _ _ H2 ltac:(intro; destruct (ud_url ud); reflexivity) resp2 w2 (grows_trans _ _ _ M G)). apply (IH _ _ _ _ _ _ H resp2 w2 G).
Qed.
End Again.

(** After a run in which no reply was other than 200, a second run - against any servers - asks nothing, writes nothing and returns False. *)
Theorem C58_second_run_idle : forall real above en en2 spec f r w, run (fetch_web_items real above en spec) f = (Ok r, w) ->
  (forall n url st c, e_reply en n url = Some (st, c) -> st = 200) ->
  run (fetch_web_items real above en2 spec) (w_fs w) = (Ok None, World (w_fs w) []).
Proof.
  intros real above en en2 spec f r w H A. unfold run, fetch_web_items in *. apply ibind_ok in H as (there&w1&H1&H). unfold path_exists in H1. injection H1 as <- <-. apply ibind_ok in H as ([]&w2&H2&H).
  assert (E : exists_in real (w_fs w2) (f_subdir spec) = true).
  { cbn [w_fs] in H2. destruct (exists_in real f (f_subdir spec)) eqn:E; [unfold ret in H2; injection H2 as <-; exact E|]. unfold makedirs in H2. destruct (f_subdir spec) as [|c d] eqn:Es; [discriminate|].
    apply ibind_ok in H2 as (e&w3&H3&H2). unfold path_exists in H3. injection H3 as Ex <-. change (exists_in real f (c :: d) = e) in Ex. rewrite E in Ex. subst e. unfold perform in H2. destruct (e_refuses en _); [discriminate|]. injection H2 as <-. cbn [w_fs do_step exists_in fs_dirs].
    apply Bool.orb_true_iff. right. apply memb_In. left. reflexivity. }
  pose proof (mono_entries real above en (f_subdir spec) (f_web_urls spec) [] None None w2) as M. rewrite H in M. cbn [snd] in M.
  unfold ibind at 1, path_exists. cbn [w_fs]. rewrite (M _ E). unfold ibind, ret at 1.
  apply (entries_again real above en en2 A _ _ _ _ _ _ _ _ H). apply grows_refl.
Qed.
Print Assumptions C58_second_run_idle.

(** ** What a crash leaves *)
Section Crash.
Variable real : str -> str.
Variable above : str -> list str.
Variable en : env.
Notation after := (after_steps real above).
(** Some request of the log was answered 200 with a content that begins with x. *)
Definition served (log : list step) (x : list N) : Prop :=
  exists n url c t, nth_error log n = Some (SRequest url) /\ e_reply en n url = Some (200, c) /\ c = x ++ t.
Definition Good (f0 : fs) (w : world) : Prop := w_fs w = after (w_log w) f0 /\
  forall k q x, dget q (fs_files (after (firstn k (w_log w)) f0)) = Some x -> dget q (fs_files f0) = Some x \/ served (w_log w) x.

Lemma served_more log s x : served log x -> served (log ++ s) x.
Proof. intros (n&url&c&t&H1&H2&H3). exists n, url, c, t. split; [|auto]. rewrite nth_error_app1; [exact H1|]. apply nth_error_Some. congruence. Qed.
Lemma good_step f0 w s : Good f0 w ->
  (forall q x, dget q (fs_files (do_step real above s (w_fs w))) = Some x -> dget q (fs_files (w_fs w)) = Some x \/ served (w_log w ++ [s]) x) ->
  Good f0 (World (do_step real above s (w_fs w)) (w_log w ++ [s])).
Proof.
  intros (E&G) H. split; cbn [w_fs w_log]; [rewrite after_app, <- E; reflexivity|]. intros k q x Hx. destruct (Nat.le_gt_cases k (length (w_log w))) as [L|L].
  - rewrite firstn_app in Hx. replace (k - length (w_log w))%nat with O in Hx by lia. cbn [firstn] in Hx. rewrite app_nil_r in Hx. destruct (G k q x Hx) as [A|A]; [left; exact A|right; apply served_more, A].
  - rewrite firstn_all2 in Hx by (rewrite app_length; cbn [length]; lia). rewrite after_app, <- E in Hx. cbn [after_steps fold_left] in Hx. destruct (H q x Hx) as [A|A]; [|right; exact A].
    rewrite E in A. rewrite <- (firstn_all (w_log w)) in A. destruct (G _ q x A) as [B|B]; [left; exact B|right; apply served_more, B].
Qed.
Lemma good_perform f0 s : (forall f, fs_files (do_step real above s f) = fs_files f) -> keeps (Good f0) (perform real above en s).
Proof. intros Hs w G. unfold perform. destruct (e_refuses en _); [exact G|]. apply good_step; [exact G|]. intros q x H. rewrite Hs in H. left; exact H. Qed.
Lemma good_write f0 p done rest w : Good f0 w -> dget (real p) (fs_files (w_fs w)) = Some done -> served (w_log w) (done ++ rest) -> Good f0 (snd (write_all real above en p rest w)).
Proof.
  revert done w. induction rest as [|b r IH]; intros done w G Hd Hs; [exact G|]. cbn [write_all]. unfold ibind, perform. destruct (e_refuses en _); [exact G|]. apply (IH (done ++ [b])).
  - apply good_step; [exact G|]. intros q x H. cbn [do_step fs_files] in H. rewrite dget_dset in H. destruct (str_eqb q (real p)); [|left; exact H]. right. apply served_more. apply some_inj in H. rewrite Hd in H. subst x.
    destruct Hs as (n&url&c&t&H1&H2&->). exists n, url, ((done ++ b :: r) ++ t), (r ++ t). split; [exact H1|]. split; [exact H2|]. rewrite <- !app_assoc. reflexivity.
  - cbn [w_fs do_step fs_files]. rewrite Hd. apply dget_dset_same.
  - cbn [w_log]. apply served_more. rewrite <- app_assoc. exact Hs.
Qed.
Lemma good_fetch_url f0 url subdir lp : keeps (Good f0) (fetch_url_to_subdir real above en url subdir lp).
Proof.
  intros w G. unfold fetch_url_to_subdir. destruct (_ || _ || _); [exact G|]. unfold ibind at 1, requests_get. assert (G1 : Good f0 (World (w_fs w) (w_log w ++ [SRequest url]))) by (apply (good_step f0 w (SRequest url) G); intros q x H; left; exact H).
  destruct (e_reply en (length (w_log w)) url) as [[st c]|] eqn:Er; [|exact G1]. cbn [fst snd]. destruct (Z.eqb_spec st 200) as [->|]; [|exact G1].
  assert (S1 : served (w_log (World (w_fs w) (w_log w ++ [SRequest url]))) c).
  { exists (length (w_log w)), url, c, []. cbn [w_log]. split; [rewrite nth_error_app2, Nat.sub_diag by lia; reflexivity|]. split; [exact Er|]. rewrite app_nil_r. reflexivity. }
  set (w1 := World _ _) in *. clearbody w1. clear G Er w. unfold ibind at 1, path_exists at 1. 
  assert (G2 : exists r w2, (if exists_in real (w_fs w1) (dirname lp) then ret tt else makedirs real above en (dirname lp)) w1 = (r, w2) /\ Good f0 w2 /\ served (w_log w2) c).
  { destruct (exists_in real (w_fs w1) (dirname lp)); [exists (Ok tt), w1; auto|]. unfold makedirs. destruct (dirname lp) as [|d0 d]; [exists (Err FileNotFoundError), w1; auto|]. unfold ibind, path_exists. destruct (exists_in _ _ _); [exists (Err FileExistsError), w1; auto|].
    unfold perform. destruct (e_refuses en _); [exists (Err OSError), w1; auto|]. eexists. eexists. split; [reflexivity|]. split; [apply good_step; [exact G1|]; intros q x H; left; exact H|]. apply served_more, S1. }
  destruct G2 as (r&w2&E2&G2&S2). unfold ibind at 1. rewrite E2. destruct r as [[]|e]; [|exact G2]. unfold ibind at 1, path_exists. destruct (exists_in real (w_fs w2) (dirname lp)); [|exact G2].
  unfold ibind at 1, open_wb. destruct (memb _ _); [exact G2|]. unfold perform. destruct (e_refuses en _); [exact G2|].
  assert (G3 : Good f0 (World (do_step real above (SOpen lp) (w_fs w2)) (w_log w2 ++ [SOpen lp]))).
  { apply good_step; [exact G2|]. intros q x H. cbn [do_step fs_files] in H. rewrite dget_dset in H. destruct (str_eqb q (real lp)); [|left; exact H]. right. apply served_more. apply some_inj in H. subst x. destruct S2 as (n&v&c'&t&H1&H2&->). exists n, v, (c ++ t), (c ++ t). auto. }
  pose proof (good_write f0 lp [] c _ G3 (dget_dset_same _ _ _)) as W. cbn [w_log app] in W. specialize (W (served_more _ _ _ S2)). unfold ibind. destruct (write_all real above en lp c _) as [[[]|e] w4]; exact W.
Qed.
Lemma good_fetch_if f0 subdir lp gu ud response : (forall w, gu w = (fst (gu w), w)) -> keeps (Good f0) (fetch_if_missing real above en subdir lp gu ud response).
Proof.
  intros Hg. unfold fetch_if_missing. apply keeps_bind; [apply keeps_exists|]. intros []; [apply keeps_ret|]. apply keeps_bind; [intros w G; rewrite Hg; exact G|]. intro url.
  apply keeps_bind; [apply keeps_key|]. intro metas. apply keeps_bind; [apply keeps_index|]. intros _. apply keeps_bind; [apply keeps_key|]. intros _. apply keeps_bind; [apply good_fetch_url|]. intro r. apply keeps_ret.
Qed.
Lemma good_urls f0 subdir ud lps urls : forall i response, keeps (Good f0) (fetch_urls real above en subdir ud lps i urls response).
Proof.
  induction urls as [|x r IH]; intros i response; cbn [fetch_urls]; [apply keeps_ret|]. apply keeps_bind; [apply keeps_index|]. intro lp. apply keeps_bind; [apply good_fetch_if; reflexivity|]. intro r'. apply IH.
Qed.
Lemma good_entries f0 subdir uds : forall lps lp response, keeps (Good f0) (fetch_entries real above en subdir uds lps lp response).
Proof.
  induction uds as [|ud r IH]; intros lps lp response; cbn [fetch_entries]; [apply keeps_ret|]. apply keeps_bind.
  - destruct (ud_localcopies ud); [apply keeps_ret|]. apply keeps_bind; [apply keeps_key|]. intro c. apply keeps_ret.
  - intros [lps' lp']. cbn [fst snd]. apply keeps_bind; [|intro; apply IH]. destruct (ud_urls ud); [apply good_urls|]. destruct lp'; [|apply keeps_fail]. apply good_fetch_if. intro w. destruct (ud_url ud); reflexivity.
Qed.
Lemma run_good spec f res w : run (fetch_web_items real above en spec) f = (res, w) -> Good f w.
Proof.
  intro H. assert (K : keeps (Good f) (fetch_web_items real above en spec)).
  { unfold fetch_web_items. apply keeps_bind; [apply keeps_exists|]. intros there. apply keeps_bind; [destruct there; [apply keeps_ret|]|intros _; apply good_entries].
    unfold makedirs. destruct (f_subdir spec); [apply keeps_fail|]. apply keeps_bind; [apply keeps_exists|]. intros []; [apply keeps_fail|]. apply good_perform. reflexivity. }
  assert (G0 : Good f (World f [])) by (split; [reflexivity|]; intros k q x Hx; left; destruct k; exact Hx). specialize (K _ G0). unfold run in H. rewrite H in K. exact K.
Qed.
End Crash.

(** Wherever a run stops, every file is an old one or holds the beginning of a content that a server sent with status 200. *)
Theorem C58_crash_leaves_prefixes : forall real above en spec f res w k q x, run (fetch_web_items real above en spec) f = (res, w) ->
  dget q (fs_files (after_steps real above (firstn k (w_log w)) f)) = Some x ->
  dget q (fs_files f) = Some x \/
  exists n url c t, nth_error (w_log w) n = Some (SRequest url) /\ e_reply en n url = Some (200, c) /\ c = x ++ t.
Proof. intros real above en spec f res w k q x H Hx. apply run_good in H as (_&G). apply (G k q x Hx). Qed.
Print Assumptions C58_crash_leaves_prefixes.

(** ** What is downloaded *)
(** A complete entry: either one local copy and one url, or as many local copies as urls. *)
Definition complete_entry (ud : urldict) : Prop :=
  (exists m ms, ud_metaurls ud = Some (m :: ms)) /\ (exists d, ud_desc ud = Some d) /\
  ((exists cs us, ud_localcopies ud = Some cs /\ ud_urls ud = Some us /\ length us = length cs) \/
   (exists c x, ud_localcopies ud = None /\ ud_localcopy ud = Some c /\ ud_urls ud = None /\ ud_url ud = Some x)).
(** The files of an entry, each with its url. *)
Definition targets (subdir : str) (ud : urldict) : list (str * str) :=
  match ud_localcopies ud, ud_urls ud, ud_localcopy ud, ud_url ud with
  | Some cs, Some us, _, _ => combine (map (path_join subdir) cs) us
  | None, None, Some c, Some x => [(path_join subdir c, x)]
  | _, _, _, _ => []
  end.
Definition all_targets (spec : fetchspec) : list (str * str) := concat (map (targets (f_subdir spec)) (f_web_urls spec)).
Fixpoint requests (log : list step) : list str :=
  match log with [] => [] | SRequest url :: r => url :: requests r | _ :: r => requests r end.
(** No two targets are the same file, and none is a directory that is made on the way. *)
Definition separate_targets (real : str -> str) (above : str -> list str) (spec : fetchspec) : Prop :=
  NoDup (map (fun t => real (fst t)) (all_targets spec)) /\
  forall p url d, In (p, url) (all_targets spec) -> In d (f_subdir spec :: map (fun t => dirname (fst t)) (all_targets spec)) -> ~ In (real p) (real d :: above d).

Section Downloads.
Variable real : str -> str.
Variable above : str -> list str.
Variable en : env.

Lemma requests_app l1 l2 : requests (l1 ++ l2) = requests l1 ++ requests l2.
Proof. induction l1 as [|s l1 IH]; [reflexivity|]. destruct s; cbn [app requests]; rewrite IH; reflexivity. Qed.
Lemma requests_bytes p c : requests (map (SByte p) c) = [].
Proof. induction c; [reflexivity|assumption]. Qed.

Fixpoint fetch_all (subdir : str) (l : list (urldict * (str * str))) (response : reply) : io reply :=
  match l with
  | [] => ret response
  | (ud, (lp, url)) :: r => do* response := fetch_if_missing real above en subdir lp (ret url) ud response in fetch_all subdir r response
  end.
Lemma set_nth_spec {X} (x : X) : forall i l j, (i < length l)%nat -> nth_error (set_nth i x l) j = if (i =? j)%nat then Some x else nth_error l j.
Proof.
  induction i as [|i IH]; intros [|y l] j H; cbn [length] in H; try lia; destruct j as [|j]; cbn [set_nth nth_error Nat.eqb]; try reflexivity. apply IH. lia.
Qed.
Lemma set_nth_len {X} (x : X) : forall i l, length (set_nth i x l) = length l.
Proof. induction i as [|i IH]; intros [|y l]; cbn [set_nth length]; try reflexivity. rewrite IH. reflexivity. Qed.
Lemma fill_paths_nth subdir copies : forall i lps j, (i <= length lps)%nat ->
  nth_error (fill_paths subdir i copies lps) j = if (j <? i)%nat then nth_error lps j else if (j <? i + length copies)%nat then nth_error (map (path_join subdir) copies) (j - i) else nth_error (fill_paths subdir i copies lps) j.
Proof.
  induction copies as [|c copies IH]; intros i lps j H; cbn [fill_paths length].
  - destruct (Nat.ltb_spec j i); [reflexivity|]. destruct (Nat.ltb_spec j (i + 0)); [lia|reflexivity].
  - rewrite (IH (S i)) by (rewrite set_nth_len, app_length; cbn [length]; lia). rewrite set_nth_spec by (rewrite app_length; cbn [length]; lia).
    destruct (Nat.ltb_spec j i) as [L|L].
    + rewrite (proj2 (Nat.ltb_lt j (S i))) by lia. rewrite (proj2 (Nat.eqb_neq i j)) by lia. apply nth_error_app1. lia.
    + destruct (Nat.ltb_spec j (S i)) as [L2|L2].
      * assert (j = i) by lia. subst j. rewrite Nat.eqb_refl, Nat.sub_diag. rewrite (proj2 (Nat.ltb_lt i (i + S (length copies)))) by lia. reflexivity.
      * replace (i + S (length copies))%nat with (S i + length copies)%nat by lia. destruct (j <? S i + length copies)%nat; [|reflexivity]. replace (j - i)%nat with (S (j - S i)) by lia. reflexivity.
Qed.
Lemma urls_all subdir ud lps : forall urls i response w, (forall j, (j < length urls)%nat -> exists p, nth_error lps (i + j) = Some p) ->
  fetch_urls real above en subdir ud lps i urls response w = fetch_all subdir (map (pair ud) (combine (firstn (length urls) (skipn i lps)) urls)) response w.
Proof.
  induction urls as [|x urls IH]; intros i response w H; [cbn [length firstn combine map]; reflexivity|]. cbn [fetch_urls length]. destruct (H O) as (p&Hp); [cbn [length]; lia|]. rewrite Nat.add_0_r in Hp.
  assert (E : skipn i lps = p :: skipn (S i) lps) by (clear -Hp; revert lps Hp; induction i as [|i IH]; intros [|y l] Hp; try discriminate; [cbn [nth_error] in Hp; apply some_inj in Hp; subst; reflexivity|cbn [skipn nth_error] in *; apply IH, Hp]).
  rewrite E. cbn [firstn combine map fetch_all]. unfold ibind at 1, at_index. rewrite Hp. cbn [ret]. unfold ibind. cbn [ret]. destruct (fetch_if_missing real above en subdir p (ret x) ud response w) as [[a|e] w1]; [|reflexivity].
  apply IH. intros j Hj. replace (S i + j)%nat with (i + S j)%nat by lia. apply H. cbn [length]. lia.
Qed.
Lemma fetch_all_app subdir l1 : forall l2 response w, fetch_all subdir (l1 ++ l2) response w = match fetch_all subdir l1 response w with (Ok r, w') => fetch_all subdir l2 r w' | (Err e, w') => (Err e, w') end.
Proof.
  induction l1 as [|[ud [lp url]] l1 IH]; intros l2 response w; [reflexivity|]. cbn [app fetch_all]. unfold ibind. destruct (fetch_if_missing _ _ _ _ _ _ _ _ w) as [[a|e] w1]; [apply IH|reflexivity].
Qed.
Lemma entries_all subdir uds : Forall complete_entry uds -> forall lps lp response w,
  fetch_entries real above en subdir uds lps lp response w = fetch_all subdir (concat (map (fun ud => map (pair ud) (targets subdir ud)) uds)) response w.
Proof.
  induction 1 as [|ud uds (Hm&Hd&Hc) H IH]; intros lps lp response w; [reflexivity|]. cbn [fetch_entries map concat]. rewrite fetch_all_app. unfold targets at 1. destruct Hc as [(cs&us&E1&E2&L)|(c&x&E1&E2&E3&E4)].
  - rewrite E1, E2. unfold ibind at 1, ret at 1. cbn [fst snd]. unfold ibind at 1.
    assert (N : forall j, (j < length cs)%nat -> nth_error (fill_paths subdir 0 cs lps) j = nth_error (map (path_join subdir) cs) j).
    { intros j Hj. rewrite fill_paths_nth by lia. apply Nat.ltb_lt in Hj. change (0 + length cs)%nat with (length cs). rewrite Hj, Nat.sub_0_r. reflexivity. }
    rewrite urls_all.
    + cbn [skipn]. assert (F : firstn (length us) (fill_paths subdir 0 cs lps) = map (path_join subdir) cs).
      { rewrite L. assert (G : forall (X : Type) (l1 l2 : list X), length l2 = length cs -> (forall j, (j < length cs)%nat -> nth_error l1 j = nth_error l2 j) -> firstn (length cs) l1 = l2).
        { clear. intros X. induction (length cs) as [|n IHn]; intros l1 l2 Hl Hn; [destruct l2; [reflexivity|discriminate]|]. destruct l2 as [|y l2]; [discriminate|]. destruct l1 as [|x l1]; [specialize (Hn O ltac:(lia)); discriminate|].
          pose proof (Hn O ltac:(lia)) as H0. cbn [nth_error] in H0. apply some_inj in H0. subst y. cbn [firstn]. f_equal. apply IHn; [cbn [length] in Hl; lia|]. intros j Hj. apply (Hn (S j)). lia. }
        apply G; [apply map_length|exact N]. }
      rewrite F. destruct (fetch_all _ _ response w) as [[r|e] w1]; [apply IH|reflexivity].
    + intros j Hj. cbn [Nat.add]. rewrite N by lia. destruct (nth_error (map (path_join subdir) cs) j) as [p|] eqn:E; [eauto|]. apply nth_error_None in E. rewrite map_length in E. lia.
  - rewrite E1, E2, E3, E4. unfold ibind at 1. unfold ibind at 1. cbn [key ret fst snd map fetch_all]. unfold ibind.
    assert (Eq : forall w0, fetch_if_missing real above en subdir (path_join subdir c) (ret x) ud response w0 = fetch_if_missing real above en subdir (path_join subdir c) (fun w1 => (Ok x, w1)) ud response w0) by reflexivity.
    destruct (fetch_if_missing real above en subdir (path_join subdir c) (fun w1 => (Ok x, w1)) ud response w) as [[r|e] w1] eqn:Ef.
    + unfold ret. rewrite Ef. apply IH.
    + unfold ret. rewrite Ef. reflexivity.
Qed.
End Downloads.

Section Exact.
Variable real : str -> str.
Variable above : str -> list str.
Variable en : env.
Hypothesis all_200 : forall n url st c, e_reply en n url = Some (st, c) -> st = 200.

Definition missing (f : fs) (t : str * str) : bool := negb (exists_in real f (fst t)).
(** The reply to some request for url. *)
Definition answered (log : list step) (url : str) (c : list N) : Prop := exists n, nth_error log n = Some (SRequest url) /\ e_reply en n url = Some (200, c).
Lemma answered_more log s url c : answered log url c -> answered (log ++ s) url c.
Proof. intros (n&H1&H2). exists n. split; [|exact H2]. rewrite nth_error_app1; [exact H1|]. apply nth_error_Some. congruence. Qed.

Lemma filter_ext_in' {X} (p q : X -> bool) l : (forall x, In x l -> p x = q x) -> filter p l = filter q l.
Proof. induction l as [|x r IH]; intro H; [reflexivity|]. cbn [filter]. rewrite (H x (or_introl eq_refl)), IH; [reflexivity|]. intros y Hy. apply H. right; exact Hy. Qed.

Lemma fetch_all_exact subdir : forall l response r w w', fetch_all real above en subdir l response w = (Ok r, w') ->
  NoDup (map (fun t => real (fst (snd t))) l) ->
  (forall t t', In t l -> In t' l -> ~ In (real (fst (snd t))) (real (dirname (fst (snd t'))) :: above (dirname (fst (snd t'))))) ->
  requests (w_log w') = requests (w_log w) ++ map snd (filter (missing (w_fs w)) (map snd l)) /\
  (exists more, w_log w' = w_log w ++ more) /\
  (forall p url, In (p, url) (map snd l) -> missing (w_fs w) (p, url) = true -> exists c, answered (w_log w') url c /\ dget (real p) (fs_files (w_fs w')) = Some c) /\
  (forall q, (forall p url, In (p, url) (map snd l) -> missing (w_fs w) (p, url) = true -> real p <> q) -> dget q (fs_files (w_fs w')) = dget q (fs_files (w_fs w))).
Proof.
  induction l as [|[ud [lp url]] l IH]; intros response r w w' H N D.
  { cbn [fetch_all] in H. unfold ret in H. injection H as _ <-. cbn [map filter]. rewrite !app_nil_r. split; [reflexivity|]. split; [exists []; rewrite app_nil_r; reflexivity|]. split; [intros p url []|reflexivity]. }
  cbn [fetch_all] in H. apply ibind_ok in H as (r1&w1&H1&H). cbn [map fst snd] in N. inversion N as [|? ? N1 N2]; subst.
  assert (D2 : forall t t', In t l -> In t' l -> ~ In (real (fst (snd t))) (real (dirname (fst (snd t'))) :: above (dirname (fst (snd t'))))) by (intros t t' Ht Ht'; apply D; right; assumption).
  destruct (IH _ _ _ _ H N2 D2) as (R&(more&Lm)&A&O). clear IH. cbn [map snd filter].
  unfold fetch_if_missing in H1. apply ibind_ok in H1 as (there&w2&H2&H1). unfold path_exists in H2. injection H2 as <- <-. change (missing (w_fs w) (lp, url)) with (negb (exists_in real (w_fs w) lp)).
  destruct (exists_in real (w_fs w) lp) eqn:Ex.
  - unfold ret in H1. injection H1 as _ <-. cbn [negb]. split; [exact R|]. split; [exists more; exact Lm|]. split.
    + intros p x [E|Hin] Hm; [injection E as -> ->; unfold missing in Hm; cbn [fst] in Hm; rewrite Ex in Hm; discriminate|]. apply (A p x Hin Hm).
    + intros q Hq. apply O. intros p x Hin. apply Hq. right. exact Hin.
  - cbn [negb map snd]. apply ibind_ok in H1 as (url'&w2&H2&H1). unfold ret in H2. injection H2 as <- <-.
    apply ibind_ok in H1 as (metas&w2&H2&H1). assert (w2 = w) by (destruct (ud_metaurls ud); [injection H2 as _ <-; reflexivity|discriminate]). subst w2. clear H2.
    apply ibind_ok in H1 as (m0&w2&H2&H1). assert (w2 = w) by (unfold at_index in H2; destruct (nth_error metas 0); [injection H2 as _ <-; reflexivity|discriminate]). subst w2. clear H2.
    apply ibind_ok in H1 as (d&w2&H2&H1). assert (w2 = w) by (destruct (ud_desc ud); [injection H2 as _ <-; reflexivity|discriminate]). subst w2. clear H2.
    apply ibind_ok in H1 as (rr&w2&H2&H1). unfold ret in H1. injection H1 as _ <-. apply fetch_url_ok in H2 as (Er&Hlp&Hurl&H2&_). destruct rr as [st c]. pose proof (all_200 _ _ _ _ Er) as ->. cbn [fst snd] in H2.
    destruct (H2 eq_refl) as (mk&Hmk&L&F&Dd). clear H2.
    assert (M : forall t, In t (map snd l) -> missing (w_fs w2) t = missing (w_fs w) t).
    { intros [p x] Hin. unfold missing. cbn [fst]. f_equal. unfold exists_in. destruct p as [|p0 p]; [reflexivity|]. set (p' := p0 :: p) in *. apply in_map_iff in Hin as ([ud' [p1 x1]]&E&Hin). cbn [snd] in E. injection E as -> ->. f_equal.
      - unfold dmem. rewrite F, dget_dset. destruct (str_eqb_spec (real p') (real lp)) as [E|_]; [|reflexivity]. exfalso. apply N1. apply in_map_iff. exists (ud', (p', x)). split; [exact E|exact Hin].
      - rewrite Dd. destruct Hmk as [->|(->&_)]; [reflexivity|]. cbn [after_steps fold_left do_step fs_dirs]. pose proof (D (ud', (p', x)) (ud, (lp, url)) (or_intror Hin) (or_introl eq_refl)) as Dn. cbn [fst snd] in Dn.
        apply Bool.eq_true_iff_eq. rewrite !memb_In. change (In (real p') ((real (dirname lp) :: above (dirname lp)) ++ fs_dirs (w_fs w)) <-> In (real p') (fs_dirs (w_fs w))). rewrite in_app_iff. tauto. }
    assert (An : answered (w_log w2) url c).
    { exists (length (w_log w)). rewrite L. split; [rewrite nth_error_app2, Nat.sub_diag by lia; reflexivity|exact Er]. }
    assert (Keep : dget (real lp) (fs_files (w_fs w')) = Some c).
    { rewrite O; [rewrite F; apply dget_dset_same|]. intros p x Hin Hm E. apply N1. apply in_map_iff in Hin as ([ud' [p1 x1]]&E1&Hin). cbn [snd] in E1. injection E1 as -> ->. apply in_map_iff. exists (ud', (p, x)). split; [exact E|exact Hin]. }
    split; [|split; [|split]].
    + rewrite R, L, requests_app. cbn [requests]. rewrite requests_app. assert (Rm : requests mk = []) by (destruct Hmk as [->|(->&_)]; reflexivity). rewrite Rm. cbn [app requests]. rewrite requests_bytes, <- app_assoc. cbn [app]. do 3 f_equal. apply filter_ext_in'. exact M.
    + exists ((SRequest url :: mk ++ SOpen lp :: map (SByte lp) c) ++ more). rewrite Lm, L, <- app_assoc. reflexivity.
    + intros p x [E|Hin] Hm.
      * injection E as <- <-. exists c. split; [rewrite Lm; apply answered_more, An|exact Keep].
      * apply (A p x Hin). rewrite (M (p, x) Hin). exact Hm.
    + intros q Hq. rewrite O.
      * rewrite F. apply dget_dset_other. intro E. apply (Hq lp url (or_introl eq_refl)); [|symmetry; exact E]. unfold missing. cbn [fst]. rewrite Ex. reflexivity.
      * intros p x Hin Hm. apply (Hq p x (or_intror Hin)). rewrite <- (M (p, x) Hin). exact Hm.
Qed.
End Exact.

(** With complete entries, separate targets and no reply other than 200, a run that ends normally has asked for exactly the targets
    that were missing, in order, each one is now there with the content sent, and no other file has changed. *)
Theorem C58_downloads_exact : forall real above en spec f r w, Forall complete_entry (f_web_urls spec) -> separate_targets real above spec ->
  (forall n url st c, e_reply en n url = Some (st, c) -> st = 200) ->
  run (fetch_web_items real above en spec) f = (Ok r, w) ->
  requests (w_log w) = map snd (filter (fun t => negb (exists_in real f (fst t))) (all_targets spec)) /\
  (forall p url, In (p, url) (all_targets spec) -> exists_in real f p = false ->
     exists n c, nth_error (w_log w) n = Some (SRequest url) /\ e_reply en n url = Some (200, c) /\ dget (real p) (fs_files (w_fs w)) = Some c) /\
  (forall q, (forall p url, In (p, url) (all_targets spec) -> exists_in real f p = false -> real p <> q) -> dget q (fs_files (w_fs w)) = dget q (fs_files f)).
Proof.
  intros real above en spec f r w Hc (N&D) A H. unfold run, fetch_web_items in H. apply ibind_ok in H as (there&w1&H1&H). unfold path_exists in H1. injection H1 as <- <-. apply ibind_ok in H as ([]&w2&H2&H). cbn [w_fs] in H2.
  set (l := concat (map (fun ud => map (pair ud) (targets (f_subdir spec) ud)) (f_web_urls spec))).
  assert (El : map snd l = all_targets spec).
  { unfold l, all_targets. rewrite concat_map, map_map. f_equal. apply map_ext. intro ud. rewrite map_map. apply map_id. }
  rewrite (entries_all real above en (f_subdir spec) _ Hc) in H. fold l in H.
  assert (W : requests (w_log w2) = [] /\ fs_files (w_fs w2) = fs_files f /\ forall t, In t (all_targets spec) -> exists_in real (w_fs w2) (fst t) = exists_in real f (fst t)).
  { destruct (exists_in real f (f_subdir spec)) eqn:E; [unfold ret in H2; injection H2 as <-; auto|]. unfold makedirs in H2. destruct (f_subdir spec) as [|c0 d] eqn:Es; [discriminate|]. apply ibind_ok in H2 as (e&w3&H3&H2). unfold path_exists in H3. injection H3 as Ex <-.
    change (exists_in real f (c0 :: d) = e) in Ex. rewrite E in Ex. subst e. unfold perform in H2. destruct (e_refuses en _); [discriminate|]. injection H2 as <-. cbn [w_log w_fs app requests do_step fs_files]. split; [reflexivity|]. split; [reflexivity|].
    intros [p x] Hin. cbn [fst]. unfold exists_in. destruct p as [|p0 p]; [reflexivity|]. cbn [fs_files fs_dirs]. f_equal. pose proof (D _ _ (c0 :: d) Hin (or_introl eq_refl)) as Dn.
    apply Bool.eq_true_iff_eq. rewrite !memb_In. change (In (real (p0 :: p)) ((real (c0 :: d) :: above (c0 :: d)) ++ fs_dirs f) <-> In (real (p0 :: p)) (fs_dirs f)). rewrite in_app_iff. tauto. }
  destruct W as (W1&W2&W3).
  assert (El2 : forall t, In t l -> In (snd t) (all_targets spec)) by (intros t Ht; rewrite <- El; apply in_map, Ht).
  destruct (fetch_all_exact real above en A (f_subdir spec) l None r w2 w H) as (R&_&P&O).
  - rewrite <- El, map_map in N. exact N.
  - intros [ud [p x]] [ud' [p' x']] Ht Ht'. cbn [fst snd]. apply (D p x (dirname p') (El2 _ Ht)). right. apply in_map_iff. exists (p', x'). split; [reflexivity|apply (El2 _ Ht')].
  - rewrite El in R, P, O. rewrite W1 in R. cbn [app] in R. split; [|split].
    + rewrite R. f_equal. apply filter_ext_in'. intros t Ht. unfold missing. rewrite (W3 t Ht). reflexivity.
    + intros p x Hin Hm. destruct (P p x Hin) as (c&(n&H3&H4)&H5); [unfold missing; rewrite (W3 _ Hin); cbn [fst]; rewrite Hm; reflexivity|]. exists n, c. auto.
    + intros q Hq. rewrite O, W2; [reflexivity|]. intros p x Hin Hm. apply (Hq p x Hin). unfold missing in Hm. rewrite (W3 _ Hin) in Hm. cbn [fst] in Hm. destruct (exists_in real f p); [discriminate|reflexivity].
Qed.
Print Assumptions C58_downloads_exact.

Lemma complete_one c x m ms d : complete_entry (Urldict None (Some c) None (Some x) (Some (m :: ms)) (Some d)).
Proof. split; [exists m, ms; reflexivity|]. split; [exists d; reflexivity|]. right. exists c, x. auto. Qed.
Lemma complete_many cs us m ms d : length us = length cs -> complete_entry (Urldict (Some cs) None (Some us) None (Some (m :: ms)) (Some d)).
Proof. intro H. split; [exists m, ms; reflexivity|]. split; [exists d; reflexivity|]. left. exists cs, us. auto. Qed.

(** A concrete case: two entries; the second file is there already. *)
Definition demo_spec : fetchspec := Fetchspec (u "dl")
  [Urldict (Some [u "a/master.txt"; u "a/ballots.txt"]) None (Some [u "http://x/m"; u "http://x/b"]) None (Some [u "http://x"]) (Some (u "two files"));
   Urldict None (Some (u "tally.txt")) None (Some (u "http://y/t")) (Some [u "http://y"]) (Some (u "one file"))].
Definition id_path (p : str) : str := p.
Definition no_parents (d : str) : list str := [].
Definition demo_env : env := Env (fun _ url => Some (200, url ++ u "!")) (fun _ => false).
Definition demo_fs : fs := Fs [(u "dl/a/ballots.txt", u "old")] [u "dl"; u "dl/a"].
Example C58_demo : Forall complete_entry (f_web_urls demo_spec) /\ separate_targets id_path no_parents demo_spec /\
  exists r w, run (fetch_web_items id_path no_parents demo_env demo_spec) demo_fs = (Ok r, w) /\ requests (w_log w) = [u "http://x/m"; u "http://y/t"] /\
  fs_files (w_fs w) = [(u "dl/a/ballots.txt", u "old"); (u "dl/a/master.txt", u "http://x/m!"); (u "dl/tally.txt", u "http://y/t!")].
Proof.
  split; [|split].
  - constructor; [apply complete_many; reflexivity|]. constructor; [apply complete_one|constructor].
  - split; [repeat (constructor; [cbn; intuition discriminate|]); constructor|]. intros p x d Hp Hd. cbn in Hp, Hd. intuition (subst; try discriminate); match goal with H : (_, _) = _ |- _ => injection H as <- <- | _ => idtac end; cbn in *; intuition discriminate.
  - eexists. eexists. split; [vm_compute; reflexivity|]. split; vm_compute; reflexivity.
Qed.

(** A file cut off by a crash is taken for complete by every later run, whatever the server says. *)
Theorem C58_crash_repair_refuted : exists spec en f k w r c,
  Forall complete_entry (f_web_urls spec) /\ run (fetch_web_items id_path no_parents en spec) f = (Ok r, w) /\
  dget (u "dl/t") (fs_files (w_fs w)) = Some c /\
  forall en2 res2 w2, run (fetch_web_items id_path no_parents en2 spec) (after_steps id_path no_parents (firstn k (w_log w)) f) = (res2, w2) ->
    exists c2, dget (u "dl/t") (fs_files (w_fs w2)) = Some c2 /\ c2 <> c.
Proof.
  exists (Fetchspec (u "dl") [Urldict None (Some (u "t")) None (Some (u "http://y/t")) (Some [u "http://y"]) (Some (u "one"))]), (Env (fun _ _ => Some (200, u "content")) (fun _ => false)), (Fs [] [u "dl"]), 4%nat.
  eexists. eexists. exists (u "content"). split; [|split; [vm_compute; reflexivity|split; [vm_compute; reflexivity|]]].
  - constructor; [apply complete_one|constructor].
  - intros en2 res2 w2 H. apply C58_existing_files_kept in H as (E&K). exists (u "co"). split; [|discriminate]. rewrite E. rewrite <- (firstn_all (w_log w2)). apply K. vm_compute. reflexivity.
Qed.
Print Assumptions C58_crash_repair_refuted.

(** A failed download is not reported: the run ends normally, with the reply to the last request, and the file is missing. *)
Theorem C58_failure_reported_refuted : exists spec en f w c p url,
  Forall complete_entry (f_web_urls spec) /\ run (fetch_web_items id_path no_parents en spec) f = (Ok (Some (200, c)), w) /\
  In (p, url) (all_targets spec) /\ exists_in id_path (w_fs w) p = false.
Proof.
  exists (Fetchspec (u "dl") [Urldict (Some [u "m"; u "b"]) None (Some [u "http://x/m"; u "http://x/b"]) None (Some [u "http://x"]) (Some (u "two"))]),
    (Env (fun _ url => if str_eqb url (u "http://x/m") then Some (404, []) else Some (200, u "ok")) (fun _ => false)), (Fs [] [u "dl"]).
  eexists. eexists. exists (u "dl/m"), (u "http://x/m"). split; [|split; [vm_compute; reflexivity|split; [left; reflexivity|vm_compute; reflexivity]]].
  constructor; [apply complete_many; reflexivity|constructor].
Qed.
Print Assumptions C58_failure_reported_refuted.
