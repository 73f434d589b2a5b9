(** * PropsConcur: C99, several fetches at once *)

From Coq Require Import Lia.
From Verif Require Import PyBase PyFacts FetchModel PropsFetch ConcurModel.
Local Open Scope Z_scope.

(** ** One process alone *)
Section Alone.
Variable real : str -> str.
Variable above : str -> list str.
Variable en : env.

Fixpoint interp (pr : proc) : io reply :=
  match pr with
  | PEnd r => fun w => (r, w)
  | PExists p k => ibind (path_exists real p) (fun x => interp (k x))
  | PMkdirs d k => ibind (makedirs real above en d) (fun _ => interp k)
  | PGet url k => ibind (requests_get en url) (fun r => interp (k r))
  | PSave p c k => ibind (open_wb real above en p) (fun _ => ibind (write_all real above en p c) (fun _ => interp k))
  end.
Definition sim {A} (x : prog A) (y : io A) : Prop := forall k w, interp (x k) w = ibind y (fun a => interp (k a)) w.
Lemma sim_ret {A} (a : A) : sim (pret a) (ret a). Proof. intros k w. reflexivity. Qed.
Lemma sim_fail {A} e : sim (@pfail A e) (fail e). Proof. intros k w. reflexivity. Qed.
Lemma sim_bind {A B} (x : prog A) y (f : A -> prog B) g : sim x y -> (forall a, sim (f a) (g a)) -> sim (pbind x f) (ibind y g).
Proof. intros H G k w. unfold pbind. rewrite H. unfold ibind. destruct (y w) as [[a|e] w1]; [|reflexivity]. apply G. Qed.
Lemma sim_key {A} (o : option A) : sim (pkey o) (key o). Proof. destruct o; [apply sim_ret|apply sim_fail]. Qed.
Lemma sim_index {A} i (l : list A) : sim (pindex i l) (at_index i l). Proof. unfold pindex, at_index. destruct (nth_error l i); [apply sim_ret|apply sim_fail]. Qed.
Lemma sim_exists p : sim (PExists p) (path_exists real p). Proof. intros k w. reflexivity. Qed.
Lemma sim_get url : sim (PGet url) (requests_get en url). Proof. intros k w. reflexivity. Qed.
Lemma sim_mkdirs d : sim (pmkdirs d) (makedirs real above en d). Proof. intros k w. cbn [interp pmkdirs]. unfold ibind. destruct (makedirs real above en d w) as [[[]|e] w1]; reflexivity. Qed.
Lemma sim_save p c : sim (psave p c) (ibind (open_wb real above en p) (fun _ => write_all real above en p c)).
Proof. intros k w. unfold psave. cbn [interp]. unfold ibind. destruct (open_wb real above en p w) as [[[]|e] w1]; [|reflexivity]. destruct (write_all real above en p c w1) as [[[]|e] w2]; reflexivity. Qed.
Lemma ibind_assoc {A B C} (x : io A) (f : A -> io B) (g : B -> io C) w : ibind (ibind x f) g w = ibind x (fun a => ibind (f a) g) w.
Proof. unfold ibind. destruct (x w) as [[a|e] w1]; reflexivity. Qed.
Lemma sim_ext {A} (x : prog A) y y' : sim x y -> (forall w, y w = y' w) -> sim x y'.
Proof. intros H E k w. rewrite H. unfold ibind. rewrite E. reflexivity. Qed.
Lemma sim_url url subdir lp : sim (fetch_url_p url subdir lp) (fetch_url_to_subdir real above en url subdir lp).
Proof.
  unfold fetch_url_p, fetch_url_to_subdir. destruct (negb (nonempty url) || negb (nonempty subdir) || negb (nonempty lp)); [apply sim_fail|]. apply sim_bind; [apply sim_get|]. intro r. destruct (fst r =? 200); [|apply sim_ret].
  apply sim_bind; [apply sim_exists|]. intro t. apply sim_bind; [destruct t; [apply sim_ret|apply sim_mkdirs]|]. intros _. apply sim_bind; [apply sim_exists|]. intros []; [|apply sim_fail].
  apply (sim_ext _ (ibind (ibind (open_wb real above en lp) (fun _ => write_all real above en lp (snd r))) (fun _ => ret r))); [|intro w; apply ibind_assoc]. apply sim_bind; [apply sim_save|]. intros _. apply sim_ret.
Qed.
Lemma sim_missing subdir lp gx gy ud r : sim gx gy -> sim (fetch_if_missing_p subdir lp gx ud r) (fetch_if_missing real above en subdir lp gy ud r).
Proof.
  intro G. unfold fetch_if_missing_p, fetch_if_missing. apply sim_bind; [apply sim_exists|]. intros []; [apply sim_ret|]. apply sim_bind; [exact G|]. intro url. apply sim_bind; [apply sim_key|]. intro ms. apply sim_bind; [apply sim_index|]. intros _.
  apply sim_bind; [apply sim_key|]. intros _. apply sim_bind; [apply sim_url|]. intro x. apply sim_ret.
Qed.
Lemma sim_urls subdir ud lps : forall urls i r, sim (fetch_urls_p subdir ud lps i urls r) (fetch_urls real above en subdir ud lps i urls r).
Proof. induction urls as [|x urls IH]; intros i r; [apply sim_ret|]. cbn [fetch_urls_p fetch_urls]. apply sim_bind; [apply sim_index|]. intro lp. apply sim_bind; [apply sim_missing, sim_ret|]. intro r'. apply IH. Qed.
Lemma sim_entries subdir : forall uds lps lp r, sim (fetch_entries_p subdir uds lps lp r) (fetch_entries real above en subdir uds lps lp r).
Proof.
  induction uds as [|ud uds IH]; intros lps lp r; [apply sim_ret|]. cbn [fetch_entries_p fetch_entries]. apply sim_bind; [destruct (ud_localcopies ud); [apply sim_ret|apply sim_bind; [apply sim_key|intro; apply sim_ret]]|].
  intro ps. apply sim_bind; [|intro r'; apply IH]. destruct (ud_urls ud); [apply sim_urls|]. destruct (snd ps); [apply sim_missing, sim_key|apply sim_fail].
Qed.
Lemma interp_web spec w : interp (fetch_web_items_p spec) w = fetch_web_items real above en spec w.
Proof.
  assert (H : sim (pbind (PExists (f_subdir spec)) (fun there : bool => pbind (if there then pret tt else pmkdirs (f_subdir spec)) (fun _ => fetch_entries_p (f_subdir spec) (f_web_urls spec) [] None None))) (fetch_web_items real above en spec)).
  { unfold fetch_web_items. apply sim_bind; [apply sim_exists|]. intro t. apply sim_bind; [destruct t; [apply sim_ret|apply sim_mkdirs]|]. intros _. apply sim_entries. }
  unfold fetch_web_items_p. rewrite H. unfold ibind. destruct (fetch_web_items real above en spec w) as [[a|e] w1]; reflexivity.
Qed.

(** The servers and troubles of [en]. *)
Definition env_serves (url : str) (r : Z * list N) : Prop := exists n, e_reply en n url = Some r.
Definition env_trouble : Prop := (exists n, e_refuses en n = true) \/ exists n url, e_reply en n url = None.
Notation go := (reach real above env_serves env_trouble).
Lemma reach_trans real' above' sv tr s1 s2 s3 : reach real' above' sv tr s1 s2 -> reach real' above' sv tr s2 s3 -> reach real' above' sv tr s1 s3.
Proof. intros H1 H2. induction H2 as [|? ? ? _ IH S1]; [exact H1|]. exact (further _ _ _ _ _ _ _ (IH H1) S1). Qed.
Lemma one_go f st f' st' : pstep real above env_serves env_trouble f st f' st' -> go (f, [st]) (f', [st']).
Proof. intro H. apply (further _ _ _ _ _ (f, [st])); [constructor|]. exact (turn _ _ _ _ f f' [] st st' [] H). Qed.
Lemma put_end b x : put_byte (length x) b x = x ++ [b].
Proof. induction x as [|y x IH]; [reflexivity|]. cbn [length put_byte app]. rewrite IH. reflexivity. Qed.
Lemma write_go p k : forall c w x, dget (real p) (fs_files (w_fs w)) = Some x -> exists st',
  go (w_fs w, [Writing p (length x) c k]) (w_fs (snd (write_all real above en p c w)), [st']) /\
  match fst (write_all real above en p c w) with Ok _ => st' = Ready k | Err e => st' = Ready (PEnd (Err e)) end.
Proof.
  induction c as [|b0 c IH]; intros w x Hx; cbn [write_all].
  - exists (Ready k). split; [apply one_go; constructor|reflexivity].
  - unfold ibind, perform. destruct (e_refuses en (length (w_log w))) eqn:R.
    + exists (Ready (PEnd (Err OSError))). split; [|reflexivity]. apply one_go. constructor. left. eauto.
    + cbn [do_step]. rewrite Hx. set (w1 := World _ _). destruct (IH w1 (x ++ [b0])) as (st'&G1&G2); [apply dget_dset_same|]. exists st'. split; [|exact G2].
      refine (reach_trans _ _ _ _ _ _ _ (one_go _ _ _ _ (st_byte real above _ _ (w_fs w) p (length x) b0 c k x Hx)) _). rewrite put_end. rewrite app_length in G1. cbn [length] in G1. rewrite Nat.add_1_r in G1. exact G1.
Qed.
Lemma alone pr : forall w, go (w_fs w, [Ready pr]) (w_fs (snd (interp pr w)), [Ready (PEnd (fst (interp pr w)))]).
Proof.
  induction pr as [r|p k IH|d k IH|url k IH|p c k IH]; intro w; cbn [interp].
  - constructor.
  - unfold ibind, path_exists. exact (reach_trans _ _ _ _ _ _ _ (one_go _ _ _ _ (st_exists _ _ _ _ _ p k)) (IH _ w)).
  - unfold ibind, makedirs. destruct d as [|d0 d]; [apply one_go; constructor|]. unfold ibind, path_exists. destruct (exists_in real (w_fs w) (d0 :: d)) eqn:E; [apply one_go; constructor; [discriminate|exact E]|].
    unfold perform. destruct (e_refuses en (length (w_log w))) eqn:R; [apply one_go; constructor; left; eauto|]. refine (reach_trans _ _ _ _ _ _ _ (one_go _ _ _ _ (st_mkdirs _ _ _ _ _ (d0 :: d) k ltac:(discriminate) E)) _). exact (IH (World (do_step real above (SMkdirs (d0 :: d)) (w_fs w)) (w_log w ++ [SMkdirs (d0 :: d)]))).
  - unfold ibind, requests_get. destruct (e_reply en (length (w_log w)) url) as [r|] eqn:R.
    + refine (reach_trans _ _ _ _ _ _ _ (one_go _ _ _ _ (st_get _ _ _ _ _ url k r _)) _); [exists (length (w_log w)); exact R|]. exact (IH r (World (w_fs w) (w_log w ++ [SRequest url]))).
    + apply one_go. constructor. right. eauto.
  - unfold ibind, open_wb. destruct (memb (real p) (fs_dirs (w_fs w))) eqn:D; [apply one_go; constructor; apply memb_In; exact D|]. unfold perform. destruct (e_refuses en (length (w_log w))) eqn:R; [apply one_go; apply st_open_refused; left; eauto|].
    set (w1 := World _ _). destruct (write_go p k c w1 []) as (st'&G1&G2); [apply dget_dset_same|].
    assert (G0 : go (w_fs w, [Ready (PSave p c k)]) (w_fs w1, [Writing p 0 c k])). { apply one_go. apply (st_open real above env_serves env_trouble (w_fs w) p c k). intro X. apply memb_In in X. congruence. }
    refine (reach_trans _ _ _ _ _ _ _ G0 (reach_trans _ _ _ _ _ _ _ G1 _)). destruct (write_all real above en p c w1) as [[[]|e] w2]; cbn [fst snd] in G2 |- *; subst st'; [apply IH|constructor].
Qed.
End Alone.
(** What one process does alone is a run of fetch_web_items as C58 has it: same files, same result. *)
Theorem C99_alone : forall real above en spec f res w, run (fetch_web_items real above en spec) f = (res, w) ->
  reach real above (env_serves en) (env_trouble en) (f, started [spec]) (w_fs w, [Ready (PEnd res)]).
Proof. intros real above en spec f res w H. pose proof (alone real above en (fetch_web_items_p spec) (World f [])) as G. rewrite interp_web in G. unfold run in H. rewrite H in G. exact G. Qed.
Print Assumptions C99_alone.

(** ** What a process may do, along all answers *)
Section Trees.
Variable serves : str -> Z * list N -> Prop.
Variable Sv : list str -> str -> list N -> Prop.
Variable Ed : list str -> list str -> result reply -> Prop.
Variable Mk : list str -> str -> Prop.
(** T: the paths found or made so far; M: the paths found missing. *)
Fixpoint holds (T M : list str) (pr : proc) : Prop :=
  match pr with
  | PEnd r => Ed T M r
  | PExists p k => holds (p :: T) M (k true) /\ holds T (p :: M) (k false)
  | PMkdirs d k => Mk M d /\ holds T M k
  | PGet url k => forall r, serves url r -> holds T M (k r)
  | PSave p c k => Sv M p c /\ holds (p :: T) M k
  end.
Definition okp {A} (x : prog A) (T M : list str) (Q : A -> list str -> list str -> Prop) : Prop := forall k, (forall a T' M', Q a T' M' -> holds T' M' (k a)) -> holds T M (x k).
Lemma ok_ret {A} (a : A) T M (Q : A -> list str -> list str -> Prop) : Q a T M -> okp (pret a) T M Q. Proof. intros H k Hk. exact (Hk a T M H). Qed.
Lemma ok_fail {A} e T M (Q : A -> list str -> list str -> Prop) : Ed T M (Err e) -> okp (pfail e) T M Q. Proof. intros H k Hk. exact H. Qed.
Lemma ok_bind {A B} (x : prog A) (f : A -> prog B) T M Q : okp x T M (fun a T' M' => okp (f a) T' M' Q) -> okp (pbind x f) T M Q.
Proof. intros H k Hk. unfold pbind. apply H. intros a T' M' G. exact (G k Hk). Qed.
Lemma ok_imp {A} (x : prog A) T M (Q Q' : A -> list str -> list str -> Prop) : okp x T M Q -> (forall a T' M', Q a T' M' -> Q' a T' M') -> okp x T M Q'.
Proof. intros H I k Hk. apply H. intros a T' M' G. apply Hk, I, G. Qed.
Lemma ok_exists p T M (Q : bool -> list str -> list str -> Prop) : Q true (p :: T) M -> Q false T (p :: M) -> okp (PExists p) T M Q.
Proof. intros H1 H2 k Hk. split; apply Hk; assumption. Qed.
Lemma ok_mkdirs d T M (Q : unit -> list str -> list str -> Prop) : Mk M d -> Q tt T M -> okp (pmkdirs d) T M Q.
Proof. intros H1 H2 k Hk. split; [exact H1|apply Hk, H2]. Qed.
Lemma ok_get url T M (Q : Z * list N -> list str -> list str -> Prop) : (forall r, serves url r -> Q r T M) -> okp (PGet url) T M Q.
Proof. intros H k Hk r Hr. apply Hk, H, Hr. Qed.
Lemma ok_save p c T M (Q : unit -> list str -> list str -> Prop) : Sv M p c -> Q tt (p :: T) M -> okp (psave p c) T M Q.
Proof. intros H1 H2 k Hk. split; [exact H1|apply Hk, H2]. Qed.

Definition after {A} (T M : list str) (P : A -> list str -> Prop) : A -> list str -> list str -> Prop := fun a T' M' => incl T T' /\ incl M M' /\ P a T'.
Lemma url_ok url subdir lp T M :
  (forall M' c, incl M M' -> lp <> [] -> serves url (200, c) -> Sv M' lp c) ->
  (forall T' M', In (dirname lp) M' -> Ed T' M' (Err GenericException)) -> (negb (nonempty url) || negb (nonempty subdir) || negb (nonempty lp) = true -> Ed T M (Err GenericException)) ->
  (forall M', In (dirname lp) M' -> Mk M' (dirname lp)) -> okp (fetch_url_p url subdir lp) T M (after T M (fun r T' => serves url r /\ (fst r = 200 -> In lp T'))).
Proof.
  intros H1 H2 H3 H4. unfold fetch_url_p. destruct (negb (nonempty url) || negb (nonempty subdir) || negb (nonempty lp)) eqn:E; [apply ok_fail, H3; reflexivity|].
  assert (Nl : lp <> []) by (intros ->; apply orb_false_elim in E as (_&E); discriminate E).
  apply ok_bind, ok_get. intros [st c] Hr. cbn [fst snd]. destruct (Z.eqb_spec st 200) as [->|N].
  2: { apply ok_ret. split; [apply incl_refl|]. split; [apply incl_refl|]. split; [exact Hr|]. cbn [fst]. congruence. }
  apply ok_bind. assert (G : forall T' M', incl T T' -> incl M M' -> okp (pbind (PExists (dirname lp)) (fun there : bool => if there then pbind (psave lp c) (fun _ => pret (200, c)) else pfail GenericException)) T' M' (after T M (fun r T' => serves url r /\ (fst r = 200 -> In lp T')))).
  { intros T' M' I1 I2. apply ok_bind, ok_exists.
    - apply ok_bind, ok_save; [apply H1; assumption|]. apply ok_ret. split; [|split]; [intros x Hx; right; right; apply I1, Hx|exact I2|]. split; [exact Hr|]. intros _. left. reflexivity.
    - apply ok_fail, H2. left. reflexivity. }
  apply ok_exists.
  - apply ok_bind, ok_ret. apply G; [intros x Hx; right; exact Hx|apply incl_refl].
  - apply ok_bind, ok_mkdirs; [apply H4; left; reflexivity|]. apply G; [apply incl_refl|intros x Hx; right; exact Hx].
Qed.
End Trees.

(** ** Any specification: a process only writes to paths it has found missing *)
Section Spares.
Variable serves : str -> Z * list N -> Prop.
Definition Sv0 (M : list str) (p : str) (c : list N) : Prop := p <> [] /\ In p M.
Definition Ed0 (T M : list str) (r : result reply) : Prop := True.
Definition Mk0 (M : list str) (d : str) : Prop := True.
Notation ok0 := (okp serves Sv0 Ed0 Mk0).
Definition anyway {A} : A -> list str -> list str -> Prop := fun _ _ _ => True.
Lemma key_ok0 {A} (o : option A) T M (Q : A -> list str -> list str -> Prop) : (forall a, Q a T M) -> ok0 (pkey o) T M Q. Proof. intro H. destruct o; [apply ok_ret, H|apply ok_fail; exact I]. Qed.
Lemma index_ok0 {A} i (l : list A) T M (Q : A -> list str -> list str -> Prop) : (forall a, Q a T M) -> ok0 (pindex i l) T M Q. Proof. intro H. unfold pindex. destruct (nth_error l i); [apply ok_ret, H|apply ok_fail; exact I]. Qed.
Lemma missing_ok0 subdir lp gx ud r T M : (forall T M (Q : str -> list str -> list str -> Prop), (forall a, Q a T M) -> ok0 gx T M Q) -> ok0 (fetch_if_missing_p subdir lp gx ud r) T M anyway.
Proof.
  intro G. unfold fetch_if_missing_p. apply ok_bind, ok_exists; [apply ok_ret; exact I|]. apply ok_bind, G. intro url. apply ok_bind, key_ok0. intro ms. apply ok_bind, index_ok0. intros _. apply ok_bind, key_ok0. intros _. apply ok_bind.
  refine (ok_imp _ _ _ _ _ _ _ _ _ (url_ok serves Sv0 Ed0 Mk0 url subdir lp T (lp :: M) _ _ _ _) _); try (intros; exact I).
  - intros M' c I1 N _. split; [exact N|apply I1; left; reflexivity].
  - intros x T' M' _. apply ok_ret. exact I.
Qed.
Lemma ret_ok0 {A} (a : A) T M (Q : A -> list str -> list str -> Prop) : (forall a, Q a T M) -> ok0 (pret a) T M Q. Proof. intro H. apply ok_ret, H. Qed.
Lemma urls_ok0 subdir ud lps : forall urls i r T M, ok0 (fetch_urls_p subdir ud lps i urls r) T M anyway.
Proof.
  induction urls as [|x urls IH]; intros i r T M; cbn [fetch_urls_p]; [apply ok_ret; exact I|]. apply ok_bind, index_ok0. intro lp. apply ok_bind. refine (ok_imp _ _ _ _ _ _ _ _ _ (missing_ok0 subdir lp (pret x) ud r T M _) _); [intros; apply ret_ok0; assumption|]. intros r' T' M' _. apply IH.
Qed.
Lemma entries_ok0 subdir : forall uds lps lp r T M, ok0 (fetch_entries_p subdir uds lps lp r) T M anyway.
Proof.
  induction uds as [|ud uds IH]; intros lps lp r T M; cbn [fetch_entries_p]; [apply ok_ret; exact I|]. apply ok_bind.
  assert (G : forall ps : list str * option str, ok0 (pbind (match ud_urls ud with Some urls => fetch_urls_p subdir ud (fst ps) 0 urls r | None => match snd ps with Some lp0 => fetch_if_missing_p subdir lp0 (pkey (ud_url ud)) ud r | None => pfail NameError end end) (fun r' => fetch_entries_p subdir uds (fst ps) (snd ps) r')) T M anyway).
  { intro ps. apply ok_bind. destruct (ud_urls ud) as [urls|]; [refine (ok_imp _ _ _ _ _ _ _ _ _ (urls_ok0 subdir ud (fst ps) urls 0 r T M) _); intros r' T' M' _; apply IH|]. destruct (snd ps) as [lp0|]; [|apply ok_fail; exact I].
    refine (ok_imp _ _ _ _ _ _ _ _ _ (missing_ok0 subdir lp0 _ ud r T M _) _); [intros; apply key_ok0; assumption|]. intros r' T' M' _. apply IH. }
  destruct (ud_localcopies ud); [apply ok_ret, G|apply ok_bind, key_ok0; intro c; apply ok_ret, G].
Qed.
Lemma web_ok0 spec : holds serves Sv0 Ed0 Mk0 [] [] (fetch_web_items_p spec).
Proof.
  unfold fetch_web_items_p. match goal with |- holds _ _ _ _ _ _ (?x _) => assert (H : ok0 x [] [] anyway) end; [|apply H; intros; exact I].
  apply ok_bind, ok_exists; apply ok_bind; [apply ok_ret|apply ok_mkdirs; [exact I|]]; apply entries_ok0.
Qed.
End Spares.

(** ** Complete specifications: every target is found or fetched *)
Section Complete.
Variable serves : str -> Z * list N -> Prop.
Variable spec : fetchspec.
Definition Sv1 (M : list str) (p : str) (c : list N) : Prop := p <> [] /\ In p M /\ exists url, In (p, url) (all_targets spec) /\ serves url (200, c).
Definition needed : list str := f_subdir spec :: map (fun t => dirname (fst t)) (all_targets spec).
Definition always_200 : Prop := forall url st c, serves url (st, c) -> st = 200.
(** Nothing is named by an empty text. *)
Definition named : Prop := f_subdir spec <> [] /\ forall p url, In (p, url) (all_targets spec) -> url <> [].
Definition Ed1 (T M : list str) (r : result reply) : Prop :=
  match r with Ok _ => always_200 -> incl (map fst (all_targets spec)) T | Err _ => named -> exists d, In d M /\ In d needed end.
Definition Mk1 (M : list str) (d : str) : Prop := named -> In d M /\ In d needed.
Notation ok1 := (okp serves Sv1 Ed1 Mk1).
Definition joined (subdir lp : str) : Prop := subdir <> [] -> lp <> [].
Lemma missing_ok1 lp url gx ud r T M : (forall T M (Q : str -> list str -> list str -> Prop), Q url T M -> ok1 gx T M Q) -> In (lp, url) (all_targets spec) -> joined (f_subdir spec) lp -> (exists m ms, ud_metaurls ud = Some (m :: ms)) -> (exists d, ud_desc ud = Some d) ->
  ok1 (fetch_if_missing_p (f_subdir spec) lp gx ud r) T M (after T M (fun _ T' => always_200 -> In lp T')).
Proof.
  intros G Ht J (m&ms&Em) (d&Ed_). unfold fetch_if_missing_p. apply ok_bind, ok_exists; [apply ok_ret; split; [intros x Hx; right; exact Hx|split; [apply incl_refl|intros _; left; reflexivity]]|]. apply ok_bind, G. rewrite Em, Ed_.
  apply ok_bind, ok_ret, ok_bind. cbn [pindex nth_error]. apply ok_ret. apply ok_bind, ok_ret, ok_bind.
  assert (Nd : In (dirname lp) needed) by (right; exact (in_map (fun t => dirname (fst t)) _ _ Ht)).
  refine (ok_imp _ _ _ _ _ _ _ _ _ (url_ok serves Sv1 Ed1 Mk1 url (f_subdir spec) lp T (lp :: M) _ _ _ _) _).
  - intros M' c I1 N Hs. split; [exact N|]. split; [apply I1; left; reflexivity|]. exists url. auto.
  - intros T' M' Hd _. exists (dirname lp). auto.
  - intros E (N1&N2). exfalso. pose proof (J N1) as N3. pose proof (N2 _ _ Ht) as N4. destruct url, (f_subdir spec), lp; try congruence; discriminate E.
  - intros M' Hd _. auto.
  - intros [st c] T' M' (I1&I2&Sr&P). apply ok_ret. split; [exact I1|]. split; [intros y Hy; apply I2; right; exact Hy|]. intro A. apply P. exact (A _ _ _ Sr).
Qed.
Lemma key_ok1 {A} (a : A) T M (Q : A -> list str -> list str -> Prop) : Q a T M -> ok1 (pkey (Some a)) T M Q. Proof. apply ok_ret. Qed.
Lemma urls_ok1 ud lps : (exists m ms, ud_metaurls ud = Some (m :: ms)) -> (exists d, ud_desc ud = Some d) -> forall urls i r T M,
  (forall j url, nth_error urls j = Some url -> exists p, nth_error lps (i + j) = Some p /\ In (p, url) (all_targets spec) /\ joined (f_subdir spec) p) ->
  ok1 (fetch_urls_p (f_subdir spec) ud lps i urls r) T M (after T M (fun _ T' => always_200 -> forall j p url, nth_error urls j = Some url -> nth_error lps (i + j) = Some p -> In p T')).
Proof.
  intros Hm Hd. induction urls as [|x urls IH]; intros i r T M H; cbn [fetch_urls_p].
  - apply ok_ret. split; [apply incl_refl|]. split; [apply incl_refl|]. intros _ [|j] p url E; discriminate E.
  - destruct (H O x eq_refl) as (lp&E0&Ht&J). rewrite Nat.add_0_r in E0. apply ok_bind. unfold pindex. rewrite E0. apply ok_ret. apply ok_bind.
    refine (ok_imp _ _ _ _ _ _ _ _ _ (missing_ok1 lp x (pret x) ud r T M _ Ht J Hm Hd) _); [intros; apply ok_ret; assumption|]. intros r' T' M' (I1&I2&P).
    refine (ok_imp _ _ _ _ _ _ _ _ _ (IH (S i) r' T' M' _) _).
    + intros j url Ej. destruct (H (S j) url Ej) as (p&G1&G2). exists p. replace (S i + j)%nat with (i + S j)%nat by lia. auto.
    + intros a T2 M2 (K1&K2&K3). split; [exact (incl_tran I1 K1)|]. split; [exact (incl_tran I2 K2)|]. intros A [|j] p url Ej Ep.
      * rewrite Nat.add_0_r in Ep. rewrite E0 in Ep. injection Ep as <-. apply K1, P, A.
      * replace (i + S j)%nat with (S i + j)%nat in Ep by lia. exact (K3 A j p url Ej Ep).
Qed.
Lemma path_join_nonempty a c : a <> [] -> path_join a c <> [].
Proof. intros Ha. unfold path_join. destruct (rev a) as [|d l] eqn:E; [apply (f_equal (@rev _)) in E; rewrite rev_involutive in E; contradiction|]. destruct a as [|x a]; [contradiction|]. destruct c as [|y c]; [destruct (d =? slash)%N; discriminate|]. destruct (y =? slash)%N; [discriminate|]. destruct (d =? slash)%N; discriminate. Qed.
Lemma entries_ok1 : forall uds, Forall complete_entry uds -> (forall ud, In ud uds -> incl (targets (f_subdir spec) ud) (all_targets spec)) -> forall lps lp r T M,
  ok1 (fetch_entries_p (f_subdir spec) uds lps lp r) T M (after T M (fun _ T' => always_200 -> forall ud t, In ud uds -> In t (targets (f_subdir spec) ud) -> In (fst t) T')).
Proof.
  induction 1 as [|ud uds (Hm&Hd&Hc) H IH]; intros Hin lps lp r T M; cbn [fetch_entries_p]; [apply ok_ret; split; [apply incl_refl|]; split; [apply incl_refl|]; intros _ ud t []|].
  pose proof (IH (fun u Hu => Hin u (or_intror Hu))) as IH'. clear IH. pose proof (Hin ud (or_introl eq_refl)) as Ht. clear Hin.
  assert (Fin : forall lps' lp' r' T' M', incl T T' -> incl M M' -> (always_200 -> forall t, In t (targets (f_subdir spec) ud) -> In (fst t) T') -> ok1 (fetch_entries_p (f_subdir spec) uds lps' lp' r') T' M' (after T M (fun _ T' => always_200 -> forall u t, In u (ud :: uds) -> In t (targets (f_subdir spec) u) -> In (fst t) T'))).
  { intros lps' lp' r' T' M' I1 I2 P. refine (ok_imp _ _ _ _ _ _ _ _ _ (IH' lps' lp' r' T' M') _). intros a T2 M2 (K1&K2&K3). split; [exact (incl_tran I1 K1)|]. split; [exact (incl_tran I2 K2)|]. intros A u0 t [<-|Hu] Htt; [apply K1, (P A t Htt)|exact (K3 A u0 t Hu Htt)]. }
  apply ok_bind. destruct Hc as [(cs&us&E1&E2&L)|(c&x&E1&E2&E3&E4)].
  - rewrite E1, E2. apply ok_ret. cbn [fst snd]. apply ok_bind. assert (Et : targets (f_subdir spec) ud = combine (map (path_join (f_subdir spec)) cs) us) by (unfold targets; rewrite E1, E2; reflexivity). rewrite Et in Ht, Fin.
    assert (N : forall j, (j < length cs)%nat -> nth_error (fill_paths (f_subdir spec) 0 cs lps) j = nth_error (map (path_join (f_subdir spec)) cs) j).
    { intros j Hj. rewrite (fill_paths_nth (fun x => x) (fun _ => []) _ _ 0%nat lps j (Nat.le_0_l _)). apply Nat.ltb_lt in Hj. change (0 + length cs)%nat with (length cs). rewrite Hj, Nat.sub_0_r. reflexivity. }
    assert (Cmb : forall (A B : list str) j p url, nth_error A j = Some p -> nth_error B j = Some url -> In (p, url) (combine A B)).
    { clear. induction A as [|a0 A IH]; intros [|b0 B] [|j] p url Ea Eb; try discriminate; cbn [nth_error combine] in *; [injection Ea as ->; injection Eb as ->; left; reflexivity|right; eauto]. }
    assert (Cmb' : forall (A B : list str) p url, In (p, url) (combine A B) -> exists j, nth_error A j = Some p /\ nth_error B j = Some url).
    { clear. induction A as [|a0 A IH]; intros [|b0 B] p url Hin; try destruct Hin; [injection H as -> ->; exists O; split; reflexivity|]. destruct (IH B p url H) as (j&G1&G2). exists (S j). split; assumption. }
    refine (ok_imp _ _ _ _ _ _ _ _ _ (urls_ok1 ud _ Hm Hd us O r T M _) _).
    + intros j url Ej. cbn [Nat.add]. assert (Hj : (j < length cs)%nat) by (rewrite <- L; apply nth_error_Some; congruence). rewrite N by exact Hj. destruct (nth_error (map (path_join (f_subdir spec)) cs) j) as [p|] eqn:Ep; [|apply nth_error_None in Ep; rewrite map_length in Ep; lia].
      exists p. split; [reflexivity|]. split; [exact (Ht _ (Cmb _ _ j p url Ep Ej))|]. apply nth_error_In in Ep. apply in_map_iff in Ep as (c&<-&_). intro Hs. apply path_join_nonempty, Hs.
    + intros r' T' M' (I1&I2&P). apply Fin; [exact I1|exact I2|]. intros A [p url] Hcb. destruct (Cmb' _ _ _ _ Hcb) as (j&G1&G2). cbn [fst]. apply (P A j p url G2). cbn [Nat.add]. rewrite N; [exact G1|]. rewrite <- L. apply nth_error_Some. congruence.
  - rewrite E1, E2, E3, E4. apply ok_bind, ok_ret, ok_ret. cbn [fst snd]. apply ok_bind. assert (Et : targets (f_subdir spec) ud = [(path_join (f_subdir spec) c, x)]) by (unfold targets; rewrite E1, E2, E3, E4; reflexivity). rewrite Et in Ht, Fin.
    refine (ok_imp _ _ _ _ _ _ _ _ _ (missing_ok1 (path_join (f_subdir spec) c) x (pkey (Some x)) ud r T M _ (Ht _ (or_introl eq_refl)) _ Hm Hd) _); [intros; apply ok_ret; assumption|intro Hs; apply path_join_nonempty, Hs|].
    intros r' T' M' (I1&I2&P). apply Fin; [exact I1|exact I2|]. intros A t [<-|[]]. exact (P A).
Qed.
Lemma web_ok1 : Forall complete_entry (f_web_urls spec) -> holds serves Sv1 Ed1 Mk1 [] [] (fetch_web_items_p spec).
Proof.
  intro Hc. assert (Hin : forall ud, In ud (f_web_urls spec) -> incl (targets (f_subdir spec) ud) (all_targets spec)).
  { intros ud Hu t Ht. unfold all_targets. apply in_concat. exists (targets (f_subdir spec) ud). split; [apply in_map, Hu|exact Ht]. }
  unfold fetch_web_items_p. match goal with |- holds _ _ _ _ _ _ (?x _) => assert (H : ok1 x [] [] (fun _ T _ => always_200 -> incl (map fst (all_targets spec)) T)) end; [|apply H; intros a T M G; exact G].
  assert (G : forall T M, ok1 (fetch_entries_p (f_subdir spec) (f_web_urls spec) [] None None) T M (fun _ T _ => always_200 -> incl (map fst (all_targets spec)) T)).
  { intros T M. refine (ok_imp _ _ _ _ _ _ _ _ _ (entries_ok1 _ Hc Hin [] None None T M) _). intros a T' M' (_&_&P) A p Hp. apply in_map_iff in Hp as (t&<-&Ht). unfold all_targets in Ht. apply in_concat in Ht as (l&Hl&Ht). apply in_map_iff in Hl as (ud&<-&Hu). exact (P A ud t Hu Ht). }
  apply ok_bind, ok_exists; apply ok_bind; [apply ok_ret|apply ok_mkdirs; [intros _; split; left; reflexivity|]]; apply G.
Qed.
End Complete.

(** ** All processes together *)
Section System.
Variable real : str -> str.
Variable above : str -> list str.
Variable serves : str -> Z * list N -> Prop.
Variable trouble : Prop.
Variable f0 : fs.
Notation step1 := (pstep real above serves trouble).
Definition more (f f' : fs) : Prop := (forall q, dget q (fs_files f) <> None -> dget q (fs_files f') <> None) /\ incl (fs_dirs f) (fs_dirs f').
Lemma more_refl f : more f f. Proof. split; [auto|apply incl_refl]. Qed.
Lemma more_trans f g h : more f g -> more g h -> more f h. Proof. intros (A1&A2) (B1&B2). split; [auto|exact (incl_tran A2 B2)]. Qed.
Lemma more_exists f f' p : more f f' -> exists_in real f p = true -> exists_in real f' p = true.
Proof.
  intros (A1&A2). unfold exists_in. destruct p as [|p0 p]; [discriminate|]. rewrite !orb_true_iff. intros [H|H]; [left|right; apply memb_In, A2, memb_In, H].
  unfold dmem in *. specialize (A1 (real (p0 :: p))). destruct (dget (real (p0 :: p)) (fs_files f)); [|discriminate]. destruct (dget (real (p0 :: p)) (fs_files f')); [reflexivity|]. destruct A1; [discriminate|reflexivity].
Qed.
(** A process that failed or was killed. *)
Definition lost (st : pstate) : Prop := st = Killed \/ exists e, st = Ready (PEnd (Err e)).
Lemma set_more f q x : more f (Fs (dset q x (fs_files f)) (fs_dirs f)).
Proof. split; [|apply incl_refl]. intros q' H. cbn [fs_files]. rewrite dget_dset. destruct (str_eqb q' q); [discriminate|exact H]. Qed.
Lemma step_more f st f' st' : step1 f st f' st' -> more f f'.
Proof. destruct 1; try apply more_refl; try apply set_more. split; [auto|]. intros x Hx. right. apply in_or_app. right. exact Hx. Qed.
Lemma missing_file p : exists_in real f0 p = false -> p <> [] -> dget (real p) (fs_files f0) = None /\ ~ In (real p) (fs_dirs f0).
Proof.
  unfold exists_in. destruct p as [|p0 p]; [congruence|]. intros H _. apply orb_false_elim in H as (H1&H2). split; [unfold dmem in H1; destruct (dget _ _); [discriminate|reflexivity]|]. intro X. apply memb_In in X. congruence.
Qed.

Section One.
Variable Sv : list str -> str -> list N -> Prop.
Variable Ed : list str -> list str -> result reply -> Prop.
Variable Mk : list str -> str -> Prop.
Hypothesis SvM : forall M p c, Sv M p c -> p <> [] /\ In p M.
Definition regular (f : fs) (st : pstate) : Prop := exists T M, (forall p, In p T -> exists_in real f p = true) /\ (forall p, In p M -> exists_in real f0 p = false) /\
  match st with
  | Ready pr => holds serves Sv Ed Mk T M pr
  | Writing p o rest k => exists dn, length dn = o /\ Sv M p (dn ++ rest) /\ dget (real p) (fs_files f) <> None /\ holds serves Sv Ed Mk (p :: T) M k
  | Killed => False
  end.
Lemma regular_more f f' st : more f f' -> regular f st -> regular f' st.
Proof.
  intros Hm (T&M&H1&H2&H3). exists T, M. split; [intros p Hp; exact (more_exists f f' p Hm (H1 p Hp))|]. split; [exact H2|]. destruct st as [pr|p o lf k|]; [exact H3| |exact H3]. destruct H3 as (dn&G1&G2&G3&G4). exists dn. split; [exact G1|]. split; [exact G2|]. split; [apply Hm, G3|exact G4].
Qed.
Lemma step_regular' f st f' st' : more f0 f -> step1 f st f' st' -> regular f st ->
  regular f' st' \/ lost st' /\ (trouble \/ (exists d k, st = Ready (PMkdirs d k)) \/ exists p c k, st = Ready (PSave p c k) /\ In (real p) (fs_dirs f)).
Proof.
  intros Hm St. pose proof (step_more _ _ _ _ St) as Hm'. intros (T&M&R1&R2&R3); destruct St;
    try (right; split; [right; eexists; reflexivity|]; solve [left; assumption|right; left; eauto|right; right; eauto 6]); try (right; split; [left; reflexivity|left; assumption]).
  - left. destruct R3 as (G1&G2). destruct (exists_in real f p) eqn:E.
    + exists (p :: T), M. split; [intros q [<-|Hq]; [exact E|exact (R1 q Hq)]|]. split; [exact R2|exact G1].
    + exists T, (p :: M). split; [exact R1|]. split; [|exact G2]. intros q [<-|Hq]; [|exact (R2 q Hq)]. destruct (exists_in real f0 p) eqn:E0; [|reflexivity]. apply (more_exists f0 f p Hm) in E0. congruence.
  - left. exists T, M. split; [intros q Hq; exact (more_exists _ _ q Hm' (R1 q Hq))|]. split; [exact R2|]. apply R3.
  - left. exists T, M. split; [exact R1|]. split; [exact R2|]. apply R3. assumption.
  - left. destruct R3 as (G1&G2). exists T, M. split; [intros q Hq; exact (more_exists _ _ q Hm' (R1 q Hq))|]. split; [exact R2|]. exists []. split; [reflexivity|]. split; [exact G1|]. split; [|exact G2]. cbn [fs_files]. rewrite dget_dset_same. discriminate.
  - left. destruct R3 as (dn&G1&G2&G3&G4). exists T, M. split; [intros q Hq; exact (more_exists _ _ q Hm' (R1 q Hq))|]. split; [exact R2|]. exists (dn ++ [b]). rewrite app_length, <- app_assoc. cbn [length app]. split; [lia|]. split; [exact G2|]. split; [|exact G4]. cbn [fs_files]. rewrite dget_dset_same. discriminate.
  - left. destruct R3 as (dn&G1&G2&G3&G4). destruct (SvM _ _ _ G2) as (N&_). exists (p :: T), M. split; [|split; [exact R2|exact G4]]. intros q [<-|Hq]; [|exact (R1 q Hq)]. unfold exists_in. destruct p as [|p0 p]; [congruence|]. unfold dmem. destruct (dget (real (p0 :: p)) (fs_files f)); [reflexivity|congruence].
Qed.
Lemma step_regular f st f' st' : more f0 f -> step1 f st f' st' -> regular f st -> regular f' st' \/ lost st'.
Proof. intros H1 H2 H3. destruct (step_regular' f st f' st' H1 H2 H3) as [H|(H&_)]; [left|right]; exact H. Qed.
(** Where it writes there was nothing at first. *)
Lemma step_new f st f' st' q : step1 f st f' st' -> regular f st -> dget q (fs_files f') <> dget q (fs_files f) -> dget q (fs_files f0) = None.
Proof.
  intros St (T&M&R1&R2&R3) N. destruct St; try (cbn [fs_files] in N; congruence); cbn [fs_files] in N; rewrite dget_dset in N; destruct (str_eqb_spec q (real p)) as [->|]; try congruence.
  - destruct R3 as (G1&_). destruct (SvM _ _ _ G1) as (Np&Hp). exact (proj1 (missing_file p (R2 p Hp) Np)).
  - destruct R3 as (dn&_&G1&_). destruct (SvM _ _ _ G1) as (Np&Hp). exact (proj1 (missing_file p (R2 p Hp) Np)).
Qed.
End One.
End System.
Lemma lost_stays real above serves trouble f st f' st' : pstep real above serves trouble f st f' st' -> ~ lost st.
Proof. intros H [->|(e&->)]; inversion H; congruence. Qed.
Section Runs.
Variable real : str -> str.
Variable above : str -> list str.
Variable serves : str -> Z * list N -> Prop.
Variable trouble : Prop.
Variable f0 : fs.
Variable specs : list fetchspec.
Variable Sv : fetchspec -> list str -> str -> list N -> Prop.
Variable Ed : fetchspec -> list str -> list str -> result reply -> Prop.
Variable Mk : fetchspec -> list str -> str -> Prop.
Hypothesis SvM : forall spec M p c, Sv spec M p c -> p <> [] /\ In p M.
Hypothesis all_hold : forall spec, In spec specs -> holds serves (Sv spec) (Ed spec) (Mk spec) [] [] (fetch_web_items_p spec).
Notation reg f := (fun spec st => lost st \/ regular real serves f0 (Sv spec) (Ed spec) (Mk spec) f st).
Definition together (s : fs * list pstate) : Prop := more f0 (fst s) /\ files_kept f0 (fst s) /\ Forall2 (reg (fst s)) specs (snd s).
Lemma together_start : together (f0, started specs).
Proof.
  split; [apply more_refl|]. split; [intros q c E; exact E|]. cbn [fst snd]. unfold started. clear SvM. induction specs as [|sp l IH]; cbn [map]; constructor; [|apply IH; intros; apply all_hold; right; assumption].
  right. exists [], []. split; [intros p []|]. split; [intros p []|]. apply all_hold. left. reflexivity.
Qed.
Lemma together_step s s' : together s -> sstep real above serves trouble s s' -> together s'.
Proof.
  intros (H1&H2&H3) St. destruct St as [f f' l1 st st' l2 St]. cbn [fst snd] in *. apply Forall2_app_inv_r in H3 as (sp1&sp2&F1&F2&Es). inversion F2 as [|sp ? sp2' ? Hst F3]; subst.
  assert (Hr : regular real serves f0 (Sv sp) (Ed sp) (Mk sp) f st) by (destruct Hst as [Hl|Hr]; [destruct (lost_stays _ _ _ _ _ _ _ _ St Hl)|exact Hr]).
  pose proof (step_more _ _ _ _ _ _ _ _ St) as Hm. split; [exact (more_trans _ _ _ H1 Hm)|]. split.
  - intros q c E. cbn [fst]. pose proof (H2 q c E) as E2. destruct (dget q (fs_files f')) as [c'|] eqn:E'.
    + destruct (list_eq_dec N.eq_dec c' c) as [->|N]; [reflexivity|]. assert (X : dget q (fs_files f0) = None); [|congruence]. apply (step_new real above serves trouble f0 (Sv sp) (Ed sp) (Mk sp) (SvM sp) f st f' st' q St Hr). rewrite E', E2. congruence.
    + destruct Hm as (Hm&_). destruct (Hm q); [rewrite E2; discriminate|exact E'].
  - cbn [snd]. assert (G : forall l l', Forall2 (reg f) l l' -> Forall2 (reg f') l l').
    { intros l l' F. induction F as [|a b0 l l' Hab _ IH]; constructor; [|exact IH]. destruct Hab as [Hl|Hg]; [left; exact Hl|right; exact (regular_more _ _ _ _ _ _ _ _ _ Hm Hg)]. }
    cbn [fst]. rewrite Es. apply Forall2_app; [apply G, F1|]. constructor; [|apply G, F3]. destruct (step_regular real above serves trouble f0 (Sv sp) (Ed sp) (Mk sp) (SvM sp) f st f' st' H1 St Hr) as [X|X]; [right|left]; exact X.
Qed.
Lemma together_reach s : reach real above serves trouble (f0, started specs) s -> together s.
Proof. intro H. remember (f0, started specs) as s0. induction H as [s|s s1 s2 H IH St]; [subst; apply together_start|]. exact (together_step _ _ (IH Heqs0) St). Qed.
End Runs.

(** Any number of fetches at once, of any specifications, taking turns in any way, with any answers, refusals and kills: at every moment the files that were
    there at first have their content. *)
Theorem C99_existing_files_kept : forall real above serves trouble specs f f' sts, reach real above serves trouble (f, started specs) (f', sts) -> files_kept f f'.
Proof.
  intros real above serves trouble specs f f' sts H. apply (together_reach real above serves trouble f specs (fun _ => Sv0) (fun _ => Ed0) (fun _ => Mk0)) in H as (_&K&_); [exact K| |intros; apply web_ok0]. intros spec M p c (H1&H2). auto.
Qed.
Print Assumptions C99_existing_files_kept.

(** ** What the files hold *)
Section Contents.
Variable real : str -> str.
Variable above : str -> list str.
Variable serves : str -> Z * list N -> Prop.
Variable trouble : Prop.
Variable f0 : fs.
Variable specs : list fetchspec.
Hypothesis complete : Forall (fun spec => Forall complete_entry (f_web_urls spec)) specs.
(** c is sent, with status 200, for a target that is the file q. *)
Definition sent (q : str) (c : list N) : Prop := exists spec p url, In spec specs /\ In (p, url) (all_targets spec) /\ real p = q /\ serves url (200, c).
Hypothesis one_content : forall q c c', sent q c -> sent q c' -> c = c'.
Definition covered (sts : list pstate) (q : str) (i : nat) : Prop := exists p o r k, In (Writing p o r k) sts /\ real p = q /\ (o <= i)%nat.
Definition file_fine (sts : list pstate) (q : str) (x : list N) : Prop :=
  dget q (fs_files f0) = Some x \/ exists c, sent q c /\ (length x <= length c)%nat /\ (forall i v, nth_error x i = Some v -> nth_error c i = Some v \/ v = 0%N) /\
  (forall i, (i < length c)%nat -> nth_error x i = nth_error c i \/ covered sts q i \/ Exists lost sts).
Lemma put_nth o v x i : nth_error (put_byte o v x) i = if (i =? o)%nat then Some v else if (i <? length x)%nat then nth_error x i else if (i <? o)%nat then Some 0%N else None.
Proof.
  revert x i. induction o as [|o IH]; intros [|y x] [|i]; cbn [put_byte nth_error length Nat.eqb]; try reflexivity.
  - destruct i; reflexivity.
  - change (S i <? S (length x))%nat with (i <? length x)%nat. destruct (Nat.ltb_spec i (length x)); [reflexivity|]. apply nth_error_None. assumption.
  - rewrite IH. cbn [length]. change (i <? 0)%nat with false. change (S i <? 0)%nat with false. cbv iota. reflexivity.
  - rewrite IH. reflexivity.
Qed.
Lemma put_len o v x : length (put_byte o v x) = Nat.max (S o) (length x).
Proof. revert x. induction o as [|o IH]; intros [|y x]; cbn [put_byte length]; rewrite ?IH; cbn [length]; lia. Qed.

Notation reg1 spec := (regular real serves f0 (Sv1 serves spec) (Ed1 serves spec) (Mk1 spec)).
Lemma cover_step f st f' st' l1 l2 spec q c i : pstep real above serves trouble f st f' st' -> In spec specs -> reg1 spec f st -> sent q c -> (i < length c)%nat ->
  covered (l1 ++ st :: l2) q i \/ Exists lost (l1 ++ st :: l2) ->
  (covered (l1 ++ st' :: l2) q i \/ Exists lost (l1 ++ st' :: l2)) \/ exists p o r k, st' = Writing p o r k /\ real p = q.
Proof.
  intros St Hsp (T&M&R1&R2&R3) Hq Hi [(p&o&r&k&Hin&Hp&Ho)|Hl].
  - apply in_app_or in Hin as [Hin|[->|Hin]].
    + left. left. exists p, o, r, k. split; [apply in_or_app; left; exact Hin|auto].
    + assert (Lo : lost st' -> Exists lost (l1 ++ st' :: l2)) by (intro L; apply Exists_exists; exists st'; split; [apply in_or_app; right; left; reflexivity|exact L]).
      inversion St; subst; try (left; right; apply Lo; first [left; reflexivity|right; eexists; reflexivity]).
      * right. repeat eexists.
      * exfalso. destruct R3 as (dn&G1&G2&_). rewrite app_nil_r in G2. destruct G2 as (_&_&url&G2&G3). assert (c = dn) by (apply (one_content (real p)); [exact Hq|]; exists spec, p, url; auto). subst. lia.
    + left. left. exists p, o, r, k. split; [apply in_or_app; right; right; exact Hin|auto].
  - left. right. apply Exists_exists in Hl as (y&Hy&Ly). apply Exists_exists. exists y. split; [|exact Ly]. apply in_app_or in Hy as [Hy|[->|Hy]]; [apply in_or_app; left; exact Hy| |apply in_or_app; right; right; exact Hy]. destruct (lost_stays _ _ _ _ _ _ _ _ St Ly).
Qed.
Lemma fine_step f st f' st' l1 l2 spec : pstep real above serves trouble f st f' st' -> In spec specs -> reg1 spec f st ->
  (forall q x, dget q (fs_files f) = Some x -> file_fine (l1 ++ st :: l2) q x) -> forall q x, dget q (fs_files f') = Some x -> file_fine (l1 ++ st' :: l2) q x.
Proof.
  intros St Hsp Hr Hf q x Hx. pose proof (fun q c i => cover_step f st f' st' l1 l2 spec q c i St Hsp Hr) as Cov.
  assert (Gen : dget q (fs_files f) = Some x -> (forall p o r k, st' = Writing p o r k -> real p <> q) -> file_fine (l1 ++ st' :: l2) q x).
  { intros E N. destruct (Hf q x E) as [H|(c&H1&H2&H3&H4)]; [left; exact H|]. right. exists c. split; [exact H1|]. split; [exact H2|]. split; [exact H3|]. intros i Hi. destruct (H4 i Hi) as [H|H]; [left; exact H|]. destruct (Cov q c i H1 Hi H) as [G|(p&o&r&k&G1&G2)]; [right; exact G|]. destruct (N _ _ _ _ G1 G2). }
  destruct St; try (apply Gen; [exact Hx|intros; discriminate]).
  - cbn [fs_files] in Hx. rewrite dget_dset in Hx. destruct (str_eqb_spec q (real p)) as [->|N].
    + apply some_inj in Hx. subst x. right. destruct Hr as (T&M&R1&R2&(_&_&url&G2&G3)&_). exists c. split; [exists spec, p, url; auto|]. split; [cbn [length]; lia|]. split; [intros [|i] v E; discriminate E|]. intros i Hi. right. left. exists p, O, c, k. split; [apply in_or_app; right; left; reflexivity|]. split; [reflexivity|lia].
    + apply Gen; [exact Hx|]. intros p' o' r' k' E. injection E as <- <- <- <-. congruence.
  - cbn [fs_files] in Hx. rewrite dget_dset in Hx. destruct (str_eqb_spec q (real p)) as [->|N].
    + apply some_inj in Hx. subst x. destruct Hr as (T&M&R1&R2&dn&Ln&(Np&Hp&url&G2&G3)&_). assert (Sn : sent (real p) (dn ++ b :: r)) by (exists spec, p, url; auto).
      destruct (Hf (real p) x0 H) as [H0|(c&H1&H2&H3&H4)]; [rewrite (proj1 (missing_file real f0 p (R2 p Hp) Np)) in H0; discriminate H0|]. pose proof (one_content _ _ _ H1 Sn) as Ec. right. exists c. split; [exact H1|].
      assert (Eo : nth_error c o = Some b) by (rewrite Ec, nth_error_app2, Ln, Nat.sub_diag by lia; reflexivity).
      assert (Lo : (o < length c)%nat) by (apply nth_error_Some; congruence).
      split; [rewrite put_len; lia|]. split.
      * intros i v. rewrite put_nth. destruct (Nat.eqb_spec i o) as [->|]; [intro E; injection E as <-; left; exact Eo|]. destruct (Nat.ltb_spec i (length x0)); [apply H3|]. destruct (i <? o)%nat; [intro E; injection E as <-; right; reflexivity|discriminate].
      * intros i Hi. rewrite put_nth. destruct (Nat.eqb_spec i o) as [->|Ni]; [left; symmetry; exact Eo|].
        destruct (Nat.lt_ge_cases o i) as [Hlt|Hge]; [right; left; exists p, (S o), r, k; split; [apply in_or_app; right; left; reflexivity|split; [reflexivity|lia]]|].
        assert (Hio : (i < o)%nat) by lia. destruct (H4 i Hi) as [E|E].
        -- left. destruct (Nat.ltb_spec i (length x0)) as [|Hx0]; [exact E|]. apply nth_error_None in Hx0. rewrite Hx0 in E. symmetry in E. apply nth_error_None in E. lia.
        -- right. destruct E as [(p'&o'&r'&k'&Hin&Hp'&Ho')|E].
           ++ left. exists p', o', r', k'. split; [|auto]. apply in_app_or in Hin as [Hin|[Hin|Hin]]; [apply in_or_app; left; exact Hin| |apply in_or_app; right; right; exact Hin]. injection Hin as <- <- <- <-. lia.
           ++ right. apply Exists_exists in E as (y&Hy&Ly). apply Exists_exists. exists y. split; [|exact Ly]. apply in_app_or in Hy as [Hy|[<-|Hy]]; [apply in_or_app; left; exact Hy| |apply in_or_app; right; right; exact Hy]. destruct Ly as [Ly|(e&Ly)]; discriminate Ly.
    + apply Gen; [exact Hx|]. intros p' o' r' k' E. injection E as <- <- <- <-. congruence.
Qed.
Lemma Sv1_M spec M p c : Sv1 serves spec M p c -> p <> [] /\ In p M. Proof. intros (H1&H2&_). auto. Qed.
Lemma all1 spec : In spec specs -> holds serves (Sv1 serves spec) (Ed1 serves spec) (Mk1 spec) [] [] (fetch_web_items_p spec).
Proof. intro H. apply web_ok1. exact (proj1 (Forall_forall _ _) complete spec H). Qed.
Lemma fine_reach s : reach real above serves trouble (f0, started specs) s -> forall q x, dget q (fs_files (fst s)) = Some x -> file_fine (snd s) q x.
Proof.
  intro H. remember (f0, started specs) as s0. induction H as [s|s s1 s2 H IH St]; [subst; intros q x Hx; left; exact Hx|]. specialize (IH Heqs0). subst s.
  pose proof (together_reach real above serves trouble f0 specs (Sv1 serves) (Ed1 serves) Mk1 Sv1_M all1 s1 H) as (_&_&F). destruct St as [f f' l1 st st' l2 St]. cbn [fst snd] in *.
  apply Forall2_app_inv_r in F as (sp1&sp2&F1&F2&Es). inversion F2 as [|sp ? sp2' ? Hst F3]; subst. destruct Hst as [Hl|Hr]; [destruct (lost_stays _ _ _ _ _ _ _ _ St Hl)|].
  apply (fine_step f st f' st' l1 l2 sp St); [|exact Hr|exact IH]. rewrite Es. apply in_or_app. right. left. reflexivity.
Qed.
End Contents.

(** Several fetches at once of specifications in which each file has one content (the processes may fetch the same file): at every moment a new file holds the
    content that is sent for it, of which some may be missing: its bytes are right or zero, and it is not too long. *)
Theorem C99_contents : forall real above serves trouble specs f f' sts, Forall (fun spec => Forall complete_entry (f_web_urls spec)) specs ->
  (forall q c c', sent real serves specs q c -> sent real serves specs q c' -> c = c') ->
  reach real above serves trouble (f, started specs) (f', sts) -> forall q x, dget q (fs_files f') = Some x ->
  dget q (fs_files f) = Some x \/
  exists c, sent real serves specs q c /\ (length x <= length c)%nat /\ forall i v, nth_error x i = Some v -> nth_error c i = Some v \/ v = 0%N.
Proof.
  intros real above serves trouble specs f f' sts Hc H1 R q x Hx. destruct (fine_reach real above serves trouble f specs Hc H1 _ R q x Hx) as [H|(c&G1&G2&G3&_)]; [left; exact H|right; exists c; auto].
Qed.
Print Assumptions C99_contents.
(** When all have ended without an exception, every file is an old one or holds a complete content; and if no server answered with another status than 200, every
    target of every specification is there. *)
Theorem C99_all_ended : forall real above serves trouble specs f f' sts, Forall (fun spec => Forall complete_entry (f_web_urls spec)) specs ->
  (forall q c c', sent real serves specs q c -> sent real serves specs q c' -> c = c') ->
  reach real above serves trouble (f, started specs) (f', sts) -> (forall st, In st sts -> exists r, st = Ready (PEnd (Ok r))) ->
  (forall q x, dget q (fs_files f') = Some x -> dget q (fs_files f) = Some x \/ sent real serves specs q x) /\
  ((forall url st c, serves url (st, c) -> st = 200) -> forall spec p url, In spec specs -> In (p, url) (all_targets spec) -> exists_in real f' p = true).
Proof.
  intros real above serves trouble specs f f' sts Hc H1 R He. split.
  - intros q x Hx. destruct (fine_reach real above serves trouble f specs Hc H1 _ R q x Hx) as [H|(c&G1&G2&G3&G4)]; [left; exact H|right]. assert (x = c); [|subst; exact G1].
    assert (G : forall i, nth_error x i = nth_error c i).
    { intro i. destruct (Nat.lt_ge_cases i (length c)) as [Hi|Hi].
      - destruct (G4 i Hi) as [E|[(p&o&r&k&Hin&_)|E]]; [exact E| |]; [destruct (He _ Hin) as (r'&E); discriminate E|]. apply Exists_exists in E as (y&Hy&Ly). destruct (He y Hy) as (r'&->). destruct Ly as [Ly|(e&Ly)]; discriminate Ly.
      - rewrite (proj2 (nth_error_None c i) Hi). apply nth_error_None. lia. }
    clear -G. revert c G. induction x as [|a x IH]; intros [|a' c] G; [reflexivity|specialize (G O); discriminate G|specialize (G O); discriminate G|]. pose proof (G O) as G0. cbn [nth_error] in G0. injection G0 as <-. f_equal. apply IH. intro i. exact (G (S i)).
  - intros A spec p url Hs Ht. pose proof (together_reach real above serves trouble f specs (Sv1 serves) (Ed1 serves) Mk1 (Sv1_M serves) (all1 serves specs Hc) _ R) as (_&_&F). cbn [fst snd] in F.
    assert (X : exists st, In st sts /\ (lost st \/ regular real serves f (Sv1 serves spec) (Ed1 serves spec) (Mk1 spec) f' st)).
    { clear -F Hs. induction F as [|a b l l' Hab _ IH]; [destruct Hs|]. destruct Hs as [->|Hs]; [exists b; split; [left; reflexivity|exact Hab]|]. destruct (IH Hs) as (st&G1&G2). exists st. split; [right; exact G1|exact G2]. }
    destruct X as (st&Hin&Hst). destruct (He st Hin) as (r&->). destruct Hst as [[L|(e&L)]|(T&M&T1&_&T3)]; [discriminate L|discriminate L|]. apply T1. exact (T3 A p (in_map fst _ _ Ht)).
Qed.
Print Assumptions C99_all_ended.

(** ** Nobody stands in another's way *)
(** The directory of a specification and the directories of its files. *)
Definition directories_of (spec : fetchspec) : list str := f_subdir spec :: map (fun t => dirname (fst t)) (all_targets spec).
(** The specification has a subdir, and no url is empty. *)
Definition has_names (spec : fetchspec) : Prop := f_subdir spec <> [] /\ forall p url, In (p, url) (all_targets spec) -> url <> [].
Definition fetchable (real : str -> str) (f : fs) (spec : fetchspec) : Prop :=
  Forall complete_entry (f_web_urls spec) /\ has_names spec /\ forall d, In d (directories_of spec) -> exists_in real f d = true.
Section Fine.
Variable real : str -> str.
Variable above : str -> list str.
Variable serves : str -> Z * list N -> Prop.
Variable f0 : fs.
Variable specs : list fetchspec.
Hypothesis fine : Forall (fetchable real f0) specs.
Notation reg1 spec := (regular real serves f0 (Sv1 serves spec) (Ed1 serves spec) (Mk1 spec)).
Lemma fine_complete : Forall (fun spec => Forall complete_entry (f_web_urls spec)) specs.
Proof. apply (Forall_impl _ (fun spec (H : fetchable real f0 spec) => proj1 H) fine). Qed.
Lemma reg1_not_lost spec f st : In spec specs -> reg1 spec f st -> ~ lost st.
Proof.
  intros Hs (T&M&R1&R2&R3) [->|(e&->)]; [exact R3|]. destruct (proj1 (Forall_forall _ _) fine spec Hs) as (_&Hn&Hd). destruct (R3 Hn) as (d&G1&G2). specialize (Hd d G2). rewrite (R2 d G1) in Hd. discriminate Hd.
Qed.
Lemma no_mkdirs spec f d k : In spec specs -> ~ reg1 spec f (Ready (PMkdirs d k)).
Proof.
  intros Hs (T&M&R1&R2&R3&_). destruct (proj1 (Forall_forall _ _) fine spec Hs) as (_&Hn&Hd). destruct (R3 Hn) as (G1&G2). specialize (Hd d G2). rewrite (R2 d G1) in Hd. discriminate Hd.
Qed.
Definition calm (s : fs * list pstate) : Prop := fs_dirs (fst s) = fs_dirs f0 /\ more f0 (fst s) /\ Forall2 (fun spec st => In spec specs /\ reg1 spec (fst s) st) specs (snd s).
Lemma calm_reach s : reach real above serves False (f0, started specs) s -> calm s.
Proof.
  intro H. remember (f0, started specs) as s0. induction H as [s|s s1 s2 H IH St].
  - subst. split; [reflexivity|]. split; [apply more_refl|]. cbn [fst snd]. unfold started. assert (G : forall l, incl l specs -> Forall2 (fun spec st => In spec specs /\ reg1 spec f0 st) l (map (fun s => Ready (fetch_web_items_p s)) l)); [|apply G, incl_refl].
    induction l as [|a l IH]; intro Hi; cbn [map]; constructor; [|apply IH; intros x Hx; apply Hi; right; exact Hx]. assert (Ha : In a specs) by (apply Hi; left; reflexivity). split; [exact Ha|].
    exists [], []. split; [intros p []|]. split; [intros p []|]. exact (all1 serves specs fine_complete a Ha).
  - destruct (IH Heqs0) as (C1&C2&C3). destruct St as [f f' l1 st st' l2 St]. cbn [fst snd] in *. apply Forall2_app_inv_r in C3 as (sp1&sp2&F1&F2&Es). inversion F2 as [|sp ? sp2' ? (Hsp&Hst) F3]; subst.
    pose proof (step_more _ _ _ _ _ _ _ _ St) as Hm.
    assert (Hd : fs_dirs f' = fs_dirs f). { destruct St; try reflexivity. destruct (no_mkdirs _ _ _ _ Hsp Hst). }
    assert (Hst' : reg1 sp f' st').
    { destruct (step_regular' real above serves False f0 (Sv1 serves sp) (Ed1 serves sp) (Mk1 sp) (Sv1_M serves sp) f st f' st' C2 St Hst) as [X|(_&[[]|[(d&k&->)|(p&c&k&->&Hp)]])]; [exact X|destruct (no_mkdirs _ _ _ _ Hsp Hst)|].
      exfalso. destruct Hst as (T&M&R1&R2&(N&G1&_)&_). rewrite C1 in Hp. exact (proj2 (missing_file real f0 p (R2 p G1) N) Hp). }
    split; [cbn [fst]; congruence|]. split; [exact (more_trans _ _ _ C2 Hm)|]. cbn [fst snd]. assert (G : forall l l', Forall2 (fun spec st => In spec specs /\ reg1 spec f st) l l' -> Forall2 (fun spec st => In spec specs /\ reg1 spec f' st) l l').
    { intros l l' F. induction F as [|a b0 l l' (Ha&Hab) _ IHF]; constructor; [|exact IHF]. split; [exact Ha|exact (regular_more _ _ _ _ _ _ _ _ _ Hm Hab)]. }
    refine (eq_ind_r (fun l => Forall2 (fun spec st => In spec specs /\ reg1 spec f' st) l (l1 ++ st' :: l2)) _ Es). apply Forall2_app; [apply G; exact F1|]. constructor; [split; assumption|apply G; exact F3].
Qed.
End Fine.
(** If nothing goes wrong outside and the directories are there, no process fails, in whatever way they take turns; and while a process has not ended, it can go on. *)
Theorem C99_nobody_fails : forall real above serves specs f f' sts, Forall (fetchable real f) specs -> reach real above serves False (f, started specs) (f', sts) ->
  length sts = length specs /\ forall st, In st sts -> (forall e, st <> Ready (PEnd (Err e))) /\ st <> Killed /\
  ((exists r, st = Ready (PEnd (Ok r))) \/ (exists url k, st = Ready (PGet url k)) \/ exists f2 st2, pstep real above serves False f' st f2 st2).
Proof.
  intros real above serves specs f f' sts Hf R. pose proof (calm_reach real above serves f specs Hf _ R) as (C1&C2&C3). cbn [fst snd] in *. split; [symmetry; clear -C3; induction C3; cbn [length]; congruence|].
  intros st Hin. assert (X : exists spec, In spec specs /\ regular real serves f (Sv1 serves spec) (Ed1 serves spec) (Mk1 spec) f' st).
  { clear -C3 Hin. induction C3 as [|a b l l' Hab _ IH]; [destruct Hin|]. destruct Hin as [->|Hin]; [exists a; split; [left; reflexivity|apply Hab]|]. destruct (IH Hin) as (sp&G1&G2). exists sp. split; [right; exact G1|exact G2]. }
  destruct X as (spec&Hs&Hr). pose proof (reg1_not_lost real serves f specs Hf spec f' st Hs Hr) as L. split; [intros e ->; apply L; right; eexists; reflexivity|]. split; [intros ->; apply L; left; reflexivity|].
  destruct st as [[r|p k|d k|url k|p c k]|p o [|b r] k|].
  - destruct r as [r|e]; [left; eauto|]. destruct L. right. eauto.
  - right. right. eexists. eexists. apply st_exists.
  - destruct (no_mkdirs real serves f specs Hf spec f' d k Hs Hr).
  - right. left. eauto.
  - right. right. eexists. eexists. apply st_open. destruct Hr as (T&M&R1&R2&(N&G1&_)&_). rewrite C1. exact (proj2 (missing_file real f p (R2 p G1) N)).
  - right. right. eexists. eexists. apply st_close.
  - right. right. destruct Hr as (T&M&R1&R2&dn&_&_&G&_). destruct (dget (real p) (fs_files f')) as [x|] eqn:E; [|congruence]. eexists. eexists. apply st_byte. exact E.
  - destruct L. left. reflexivity.
Qed.
Print Assumptions C99_nobody_fails.

(** ** Every schedule ends *)
Section Ends.
Variable real : str -> str.
Variable above : str -> list str.
Variable serves : str -> Z * list N -> Prop.
Variable trouble : Prop.
Definition may (st st' : pstate) : Prop := exists f f', pstep real above serves trouble f st f' st'.
Notation ends := (Acc (fun st' st => may st st')).
Lemma ends_killed : ends Killed. Proof. constructor. intros y (f&f'&H). inversion H. congruence. Qed.
Lemma ends_end r : ends (Ready (PEnd r)). Proof. constructor. intros y (f&f'&H). inversion H. exfalso. match goal with H : forall r, Ready _ <> _ |- _ => exact (H _ eq_refl) end. Qed.
Lemma ends_writing p k : ends (Ready k) -> forall r o, ends (Writing p o r k).
Proof. intro H. induction r as [|b r IH]; intro o; constructor; intros y (f&f'&St); inversion St; subst; auto using ends_killed, ends_end. Qed.
Lemma ends_ready pr : ends (Ready pr).
Proof. induction pr as [r|p k IH|d k IH|url k IH|p c k IH]; [apply ends_end| | | |]; constructor; intros y (f&f'&St); inversion St; subst; auto using ends_killed, ends_end, ends_writing. Qed.
Lemma ends_all st : ends st. Proof. destruct st as [pr|p o r k|]; [apply ends_ready|apply ends_writing, ends_ready|apply ends_killed]. Qed.
Lemma pool_ends sts : Acc (fun l' l => exists l1 st st' l2, l = l1 ++ st :: l2 /\ l' = l1 ++ st' :: l2 /\ may st st') sts.
Proof.
  induction sts as [|st sts IHs]; [constructor; intros y (l1&a&a'&l2&E&_); destruct l1; discriminate E|]. revert sts IHs. induction (ends_all st) as [st _ IH1]. intros sts IHs. induction IHs as [sts Hs IH2].
  constructor. intros y (l1&a&a'&l2&E&->&Hm). destruct l1 as [|x l1]; cbn [app] in E |- *.
  - injection E as <- <-. apply IH1; [exact Hm|constructor; exact Hs].
  - injection E as <- ->. apply IH2. exists l1, a, a', l2. auto.
Qed.
End Ends.
(** There is no schedule without an end: any number of fetches, whatever is answered and whatever goes wrong. *)
Theorem C99_every_schedule_ends : forall real above serves trouble, well_founded (fun s' s => sstep real above serves trouble s s').
Proof.
  intros real above serves trouble [f sts]. revert f. induction (pool_ends real above serves trouble sts) as [sts _ IH]. intro f. constructor. intros [f' sts'] St. remember (f, sts) as s. remember (f', sts') as s'. destruct St as [g g' l1 st st' l2 St]. injection Heqs as -> <-. injection Heqs' as -> <-.
  apply IH. exists l1, st, st', l2. split; [reflexivity|]. split; [reflexivity|]. exists f, f'. exact St.
Qed.
Print Assumptions C99_every_schedule_ends.
(** Together: the directories are there, every request is answered with 200 and each file has one content: a schedule that cannot go on has ended with every process at
    its normal end, every target there and every new file complete. *)
Theorem C99_together_succeed : forall real above serves specs f f' sts, Forall (fetchable real f) specs ->
  (forall q c c', sent real serves specs q c -> sent real serves specs q c' -> c = c') -> (forall url, exists r, serves url r) -> (forall url st c, serves url (st, c) -> st = 200) ->
  reach real above serves False (f, started specs) (f', sts) -> (forall s, ~ sstep real above serves False (f', sts) s) ->
  (forall st, In st sts -> exists r, st = Ready (PEnd (Ok r))) /\ (forall spec p url, In spec specs -> In (p, url) (all_targets spec) -> exists_in real f' p = true) /\
  forall q x, dget q (fs_files f') = Some x -> dget q (fs_files f) = Some x \/ sent real serves specs q x.
Proof.
  intros real above serves specs f f' sts Hf H1 Ha H2 R Hend. destruct (C99_nobody_fails real above serves specs f f' sts Hf R) as (_&Hn).
  assert (He : forall st, In st sts -> exists r, st = Ready (PEnd (Ok r))).
  { intros st Hin. assert (G : ~ exists f2 st2, pstep real above serves False f' st f2 st2). { intros (f2&st2&St). apply in_split in Hin as (l1&l2&->). exact (Hend _ (turn _ _ _ _ _ _ l1 _ _ l2 St)). }
    destruct (Hn st Hin) as (_&_&[H|[(url&k&->)|H]]); [exact H| |destruct (G H)]. destruct (Ha url) as (r&Hr). destruct G. eexists. eexists. apply st_get. exact Hr. }
  destruct (C99_all_ended real above serves False specs f f' sts (fine_complete real f specs Hf) H1 R He) as (G1&G2). split; [exact He|]. split; [exact (G2 H2)|exact G1].
Qed.
Print Assumptions C99_together_succeed.

(** ** Without the directories, and before the end *)
Definition one_spec : fetchspec := Fetchspec (u "dl") [Urldict None (Some (u "t")) None (Some (u "http://y/t")) (Some [u "http://y"]) (Some (u "one"))].
Definition says (url : str) (r : Z * list N) : Prop := r = (200, u "content").
(** One step when nothing goes wrong outside, as a function. *)
Definition next (f : fs) (st : pstate) : fs * pstate :=
  match st with
  | Ready (PExists p k) => (f, Ready (k (exists_in id_path f p)))
  | Ready (PMkdirs (c :: d) k) => if exists_in id_path f (c :: d) then (f, Ready (PEnd (Err FileExistsError))) else (Fs (fs_files f) ((c :: d) :: fs_dirs f), Ready k)
  | Ready (PGet url k) => (f, Ready (k (200, u "content")))
  | Ready (PSave p c k) => if memb p (fs_dirs f) then (f, st) else (Fs (dset p [] (fs_files f)) (fs_dirs f), Writing p 0 c k)
  | Writing p o (b :: r) k => match dget p (fs_files f) with Some x => (Fs (dset p (put_byte o b x) (fs_files f)) (fs_dirs f), Writing p (S o) r k) | None => (f, st) end
  | Writing p o [] k => (f, Ready k)
  | _ => (f, st)
  end.
Lemma next_step f st : next f st = (f, st) \/ pstep id_path no_parents says False f st (fst (next f st)) (snd (next f st)).
Proof.
  destruct st as [[r|p k|[|c d] k|url k|p c k]|p o [|b r] k|]; cbn [next]; try (left; reflexivity); try (right; cbn [fst snd]; constructor; fail).
  - destruct (exists_in id_path f (c :: d)) eqn:E; right; cbn [fst snd]; [apply st_mkdirs_there|apply (st_mkdirs id_path no_parents)]; first [discriminate|exact E].
  - right. apply st_get. reflexivity.
  - destruct (memb p (fs_dirs f)) eqn:E; [left; reflexivity|right]. apply (st_open id_path). intro X. apply memb_In in X. unfold id_path in X. congruence.
  - destruct (dget p (fs_files f)) as [x|] eqn:E; [|left; reflexivity]. right. apply (st_byte id_path). exact E.
Qed.
(** Two processes; true: the first one's turn. *)
Fixpoint schedule (l : list bool) (f : fs) (st1 st2 : pstate) : fs * pstate * pstate :=
  match l with
  | [] => (f, st1, st2)
  | true :: r => let n := next f st1 in schedule r (fst n) (snd n) st2
  | false :: r => let n := next f st2 in schedule r (fst n) st1 (snd n)
  end.
Lemma schedule_reach : forall l f st1 st2 s, reach id_path no_parents says False s (f, [st1; st2]) -> let '(f', a, b) := schedule l f st1 st2 in reach id_path no_parents says False s (f', [a; b]).
Proof.
  induction l as [|t l IH]; intros f st1 st2 s H; cbn [schedule]; [exact H|]. destruct t; apply IH.
  - destruct (next_step f st1) as [->|St]; [exact H|]. exact (further _ _ _ _ _ _ _ H (turn _ _ _ _ _ _ [] _ _ [st2] St)).
  - destruct (next_step f st2) as [->|St]; [exact H|]. exact (further _ _ _ _ _ _ _ H (turn _ _ _ _ _ _ [st1] _ _ [] St)).
Qed.
(** Two runs at once of the same specification, on an empty disk, with nothing wrong outside: one may end with FileExistsError (os.makedirs without exist_ok). *)
Theorem C99_makedirs_race_refuted : exists f' st, reach id_path no_parents says False (Fs [] [], started [one_spec; one_spec]) (f', [st; Ready (PEnd (Err FileExistsError))]).
Proof.
  pose proof (schedule_reach [true; false; true; false] (Fs [] []) (Ready (fetch_web_items_p one_spec)) (Ready (fetch_web_items_p one_spec)) _ (here _ _ _ _ _)) as H.
  destruct (schedule _ _ _ _) as [[f' x] y] eqn:E. exists f', x. assert (Ey : y = Ready (PEnd (Err FileExistsError))); [|rewrite Ey in H; exact H]. apply (f_equal snd) in E. cbn [snd] in E. rewrite <- E. vm_compute. reflexivity.
Qed.
Print Assumptions C99_makedirs_race_refuted.
(** Two runs at once: one may end normally when the file of its target is still empty, though the server has something to say. *)
Theorem C99_end_means_complete_refuted : exists f' r st, reach id_path no_parents says False (Fs [] [u "dl"], started [one_spec; one_spec]) (f', [st; Ready (PEnd (Ok r))]) /\
  dget (u "dl/t") (fs_files f') = Some [] /\ sent id_path says [one_spec] (u "dl/t") (u "content").
Proof.
  pose proof (schedule_reach [true; true; true; true; true; true; false; false] (Fs [] [u "dl"]) (Ready (fetch_web_items_p one_spec)) (Ready (fetch_web_items_p one_spec)) _ (here _ _ _ _ _)) as H.
  destruct (schedule _ _ _ _) as [[f' x] y] eqn:E. exists f', None, x. assert (Ey : y = Ready (PEnd (Ok None))). { apply (f_equal snd) in E. cbn [snd] in E. rewrite <- E. vm_compute. reflexivity. }
  rewrite Ey in H. split; [exact H|]. split.
  - apply (f_equal (fun s => fst (fst s))) in E. cbn [fst] in E. rewrite <- E. vm_compute. reflexivity.
  - exists one_spec, (u "dl/t"), (u "http://y/t"). split; [left; reflexivity|]. split; [left; reflexivity|]. split; reflexivity.
Qed.
Print Assumptions C99_end_means_complete_refuted.
(** The hypotheses of C99_together_succeed can be met. *)
Example C99_demo : Forall (fetchable id_path (Fs [] [u "dl"; u "dl/a"])) [demo_spec; one_spec] /\ (forall q c c', sent id_path says [demo_spec; one_spec] q c -> sent id_path says [demo_spec; one_spec] q c' -> c = c').
Proof.
  split; [|intros q c c' (?&?&?&_&_&_&E) (?&?&?&_&_&_&E'); congruence].
  repeat (constructor; [split; [|split; [split; [discriminate|]|]]|]); try constructor.
  - apply complete_many. reflexivity.
  - constructor; [apply complete_one|constructor].
  - intros p url H. cbn in H. intuition (subst; try discriminate); match goal with H : (_, _) = _ |- _ => injection H as <- <-; discriminate end.
  - intros d H. vm_compute in H. intuition (subst; vm_compute; reflexivity).
  - apply complete_one.
  - constructor.
  - intros p url H. cbn in H. intuition (subst; try discriminate); match goal with H : (_, _) = _ |- _ => injection H as <- <-; discriminate end.
  - intros d H. vm_compute in H. intuition (subst; vm_compute; reflexivity).
Qed.
