(** * PropsSpecfile: C70, a whole run of fetchmgr.py *)

From Verif Require Import PyBase PyFacts UrlText JsonText JsonParse FetchModel PosixModel PosixFacts Jabmod ParserModel DebtallyModel ConvertModel ExtfileModel PropsExtfile SpecfileModel SpecfileFacts PropsFetch.
Local Open Scope Z_scope.

(** ** Specification *)
(** The URLs requested, in order. *)
Fixpoint asked (l : list event) : list str := match l with [] => [] | EGet url :: r => url :: asked r | _ :: r => asked r end.
(** The first list is the second with some members left out. *)
Inductive subsequence {X} : list X -> list X -> Prop :=
| sub_nil : subsequence [] []
| sub_take x l l' : subsequence l l' -> subsequence (x :: l) (x :: l')
| sub_skip x l l' : subsequence l l' -> subsequence l (x :: l').
(** A world in which everything lies in a directory and the current directory is there. *)
Definition sound (w : gworld) : Prop := well_formed (g_tree w) /\ at_place (g_tree w) (g_cwd w) = Some NDir.

Lemma asked_app l1 l2 : asked (l1 ++ l2) = asked l1 ++ asked l2.
Proof. induction l1 as [|e l1 IH]; [reflexivity|]. destruct e; cbn [app asked]; rewrite IH; reflexivity. Qed.
Lemma pbind_ok {A B} (x : prog A) (f : A -> prog B) w r w' : pbind x f w = (Ok r, w') -> exists a w1, x w = (Ok a, w1) /\ f a w1 = (Ok r, w').
Proof. unfold pbind. destruct (x w) as [[a|e] w1]; [|discriminate]. intro H. exists a, w1. auto. Qed.

Section Web.
Variable server : nat -> str -> option (Z * list N).

(** What one download can do. *)
Definition step_ok (w w' : gworld) : Prop := g_cwd w' = g_cwd w /\ sound w' /\ tree_kept (g_tree w) (g_tree w').
Lemma step_refl w : sound w -> step_ok w w. Proof. intro H. split; [reflexivity|]. split; [exact H|apply kept_refl]. Qed.
Lemma step_trans w1 w2 w3 : step_ok w1 w2 -> step_ok w2 w3 -> step_ok w1 w3.
Proof. intros (C1&_&K1) (C2&S2&K2). split; [congruence|]. split; [exact S2|]. apply (kept_trans _ _ _ K1 K2). Qed.

Lemma write_new w lp c : sound w -> (forall q, resolve (g_cwd w) (g_tree w) true lp = Ok q -> at_place (g_tree w) q = None \/ at_place (g_tree w) q = Some NDir) ->
  let '(r, t') := write_bytes lp c (g_cwd w) (g_tree w) in
  sound (Gworld t' (g_cwd w) (g_events w)) /\ tree_kept (g_tree w) t' /\
  (forall e, r = Err e -> t' = g_tree w) /\
  (r = Ok tt -> exists q, resolve (g_cwd w) t' true lp = Ok q /\ at_place t' q = Some (NFile c) /\ at_place (g_tree w) q = None /\ forall q', q' <> q -> t' q' = g_tree w q').
Proof.
  intros (W&L) H. unfold write_bytes. destruct (resolve (g_cwd w) (g_tree w) true lp) as [q|e] eqn:E; [|split; [split; assumption|split; [apply kept_refl|split; [reflexivity|discriminate]]]].
  destruct (H q eq_refl) as [Eq|Eq]; rewrite Eq; [|split; [split; assumption|split; [apply kept_refl|split; [reflexivity|discriminate]]]].
  assert (Hlp : lp <> []) by (intros ->; discriminate E).
  assert (Ew : walk max_links (g_tree w) true (start_of (g_cwd w) lp) (names lp) = Ok q) by (destruct lp; [congruence|exact E]).
  destruct (walk_parent _ true W _ _ _ q (start_dir _ _ lp L) Ew Eq) as (p0&x&->&H0).
  assert (K : tree_kept (g_tree w) (put (p0 ++ [x]) (Some (NFile c)) (g_tree w))) by (apply put_kept, Eq).
  split; [split; cbn [g_tree g_cwd]; [apply wf_put; [exact W|exact H0|congruence]|rewrite K; [exact L|congruence]]|]. split; [exact K|]. split; [discriminate|]. intros _. exists (p0 ++ [x]). split.
  - assert (Ew2 : walk max_links (put (p0 ++ [x]) (Some (NFile c)) (g_tree w)) true (start_of (g_cwd w) lp) (names lp) = Ok (p0 ++ [x])) by (apply walk_put_file; [left; exact Eq|exact Ew]). unfold resolve. destruct lp; [congruence|exact Ew2].
  - split; [apply at_put_same; destruct p0; discriminate|]. split; [exact Eq|]. intros q' Hq'. apply put_other, Hq'.
Qed.

(** The path leads nowhere, and after its directory was made it leads to nothing or to a directory. *)
Lemma after_makedirs w lp n t' : sound w -> fit_path lp -> exists_at (g_cwd w) (g_tree w) (dirname lp) = false -> os_makedirs (g_cwd w) n (dirname lp) (g_tree w) = (Ok tt, t') ->
  forall q, resolve (g_cwd w) t' true lp = Ok q -> at_place t' q = None \/ at_place t' q = Some NDir.
Proof.
  intros (W&L) F Hx H q Hq. destruct (has_slash_dec lp) as [Hs|Hs]; [|rewrite (dirname_none lp Hs) in H; destruct n; discriminate H].
  destruct (dirname_names lp Hs) as (l&En&El&Ea&Hd).
  assert (Hdot : dirname lp <> dot).
  { intro X. rewrite X in Hx. assert (R : resolve (g_cwd w) (g_tree w) true dot = Ok (g_cwd w)) by reflexivity. unfold exists_at, looks_up in Hx. rewrite R, L in Hx. discriminate Hx. }
  pose proof (makedirs_good (g_cwd w) n (dirname lp) (g_tree w) W L) as (M&W'). rewrite H in M, W'. cbn [snd] in M, W'.
  destruct (makedirs_fresh (g_cwd w) n (dirname lp) (g_tree w) t' (fit_last_part lp F Hdot) W L H) as (p&_&Hp&Hc&Hw).
  assert (Hlp : lp <> []) by (intros ->; exact Hs).
  assert (Eq : walk max_links t' true (start_of (g_cwd w) lp) (names lp) = Ok q) by (unfold resolve in Hq; destruct lp; [congruence|exact Hq]).
  assert (Ef : filter solid (pnames (dirname lp)) = pnames (dirname lp)). { rewrite <- El. clear. induction l as [|x l IH]; [reflexivity|]. cbn [filter]. destruct (solid x) eqn:E; [|exact IH]. cbn [filter]. rewrite E, IH. reflexivity. }
  rewrite En, (walk_solid t' true [basename lp] ltac:(discriminate) max_links l (pnames (dirname lp))) in Eq by (rewrite Ef; exact El).
  destruct (Hw true [basename lp]) as (k&Hk). assert (Es : start_of (g_cwd w) (dirname lp) = start_of (g_cwd w) lp) by (unfold start_of; rewrite Ea; reflexivity). rewrite Es in Hk. rewrite Hk, walk_cons in Eq.
  destruct (str_eqb (basename lp) [] || str_eqb (basename lp) dot); [rewrite walk_nil in Eq; injection Eq as <-; right; exact Hp|].
  destruct (str_eqb (basename lp) dotdot); [rewrite walk_nil in Eq; injection Eq as <-; right; apply wf_up; assumption|]. rewrite Hc in Eq. injection Eq as <-. left. apply Hc.
Qed.

Lemma sound_events w ev : sound w -> sound (Gworld (g_tree w) (g_cwd w) ev). Proof. intro H. exact H. Qed.
Lemma fetch_one url sub lp w r w' : sound w -> fit_path lp -> exists_at (g_cwd w) (g_tree w) lp = false -> pfetch_url server url sub lp w = (r, w') ->
  step_ok w w' /\ (asked (g_events w') = asked (g_events w) ++ [url] \/ asked (g_events w') = asked (g_events w) /\ forall x, r <> Ok x) /\ (exists ev, g_events w' = g_events w ++ ev) /\
  (forall q, g_tree w' q = g_tree w q \/ g_tree w q = None) /\
  (forall q b, at_place (g_tree w') q = Some (NFile b) -> at_place (g_tree w) q = Some (NFile b) \/
     (nth_error (g_events w') (length (g_events w)) = Some (EGet url) /\ server (length (g_events w)) url = Some (200, b) /\ resolve (g_cwd w) (g_tree w') true lp = Ok q)) /\
  (forall x, r = Ok x -> g_events w' = g_events w ++ [EGet url] /\ server (length (g_events w)) url = Some x /\ (fst x = 200 -> exists q, resolve (g_cwd w) (g_tree w') true lp = Ok q /\ at_place (g_tree w') q = Some (NFile (snd x)) /\ at_place (g_tree w) q = None) /\ (fst x <> 200 -> g_tree w' = g_tree w)).
Proof.
  intros S F X H. unfold pfetch_url in H. destruct (negb (nonempty url) || negb (nonempty sub) || negb (nonempty lp)).
  { unfold pfail in H. injection H as <- <-. split; [apply step_refl, S|]. split; [right; split; [reflexivity|discriminate]|]. split; [exists []; rewrite app_nil_r; reflexivity|]. split; [auto|]. split; [auto|discriminate]. }
  unfold pbind at 1, pget in H. cbv zeta in H. set (w1 := Gworld (g_tree w) (g_cwd w) (g_events w ++ [EGet url])) in *.
  assert (S1 : sound w1) by exact S.
  assert (N1 : nth_error (g_events w ++ [EGet url]) (length (g_events w)) = Some (EGet url)) by (rewrite nth_error_app2, Nat.sub_diag by lia; reflexivity).
  assert (A1 : asked (g_events w ++ [EGet url]) = asked (g_events w) ++ [url]) by (rewrite asked_app; reflexivity).
  destruct (server (length (g_events w)) url) as [[st c]|] eqn:Es.
  2:{ injection H as <- <-. split; [apply (step_refl w), S|]. split; [left; exact A1|]. split; [exists [EGet url]; reflexivity|]. split; [auto|]. split; [auto|discriminate]. }
  cbn [fst snd] in H. destruct (st =? 200) eqn:E2.
  2:{ unfold pret in H. injection H as <- <-. split; [apply (step_refl w), S|]. split; [left; exact A1|]. split; [exists [EGet url]; reflexivity|]. split; [auto|]. split; [auto|]. intros x Hx. injection Hx as <-. split; [reflexivity|]. split; [reflexivity|]. split; [cbn [fst]; intros ->; discriminate E2|reflexivity]. }
  apply Z.eqb_eq in E2. subst st. unfold pbind at 1, pexists in H. cbn [w1 g_tree g_cwd] in H.
  (* what follows the making of the directory *)
  assert (G : forall w2, step_ok w w2 -> g_events w2 = g_events w ++ [EGet url] -> (forall q, g_tree w2 q = g_tree w q \/ g_tree w q = None) -> (forall q b, at_place (g_tree w2) q = Some (NFile b) -> at_place (g_tree w) q = Some (NFile b)) ->
     (forall q, resolve (g_cwd w2) (g_tree w2) true lp = Ok q -> at_place (g_tree w2) q = None \/ at_place (g_tree w2) q = Some NDir) ->
     pbind (pexists (dirname lp)) (fun there => if there then pbind (on_tree (write_bytes lp c)) (fun _ => pret (200, c)) else pbind (pprint (u "d " ++ dirname lp ++ u " f " ++ basename lp)) (fun _ => pfail GenericException)) w2 = (r, w') ->
     step_ok w w' /\ (asked (g_events w') = asked (g_events w) ++ [url] \/ asked (g_events w') = asked (g_events w) /\ forall x, r <> Ok x) /\ (exists ev, g_events w' = g_events w ++ ev) /\
     (forall q, g_tree w' q = g_tree w q \/ g_tree w q = None) /\
     (forall q b, at_place (g_tree w') q = Some (NFile b) -> at_place (g_tree w) q = Some (NFile b) \/
        (nth_error (g_events w') (length (g_events w)) = Some (EGet url) /\ Some (200, c) = Some (200, b) /\ resolve (g_cwd w) (g_tree w') true lp = Ok q)) /\
     (forall x, r = Ok x -> g_events w' = g_events w ++ [EGet url] /\ Some (200, c) = Some x /\ (fst x = 200 -> exists q, resolve (g_cwd w) (g_tree w') true lp = Ok q /\ at_place (g_tree w') q = Some (NFile (snd x)) /\ at_place (g_tree w) q = None) /\ (fst x <> 200 -> g_tree w' = g_tree w))).
  { intros w2 St Ev Tn Fl Rs H2. pose proof St as (C2&S2&K2). unfold pbind at 1, pexists in H2. destruct (exists_at (g_cwd w2) (g_tree w2) (dirname lp)).
    - unfold pbind, on_tree in H2. pose proof (write_new w2 lp c S2 Rs) as Wn. destruct (write_bytes lp c (g_cwd w2) (g_tree w2)) as [rw t3]. destruct Wn as (S3&K3&B3&O3).
      destruct rw as [[]|e].
      + unfold pret in H2. injection H2 as <- <-. destruct (O3 eq_refl) as (q0&R0&F0&N0&T0). split; [|split; [|split; [|split; [|split]]]].
        * split; [exact C2|]. split; [exact S3|]. apply (kept_trans _ _ _ K2 K3).
        * left. cbn [g_events]. rewrite Ev. exact A1.
        * exists [EGet url]. exact Ev.
        * intro q. cbn [g_tree]. destruct (place_eqb_spec q q0) as [->|Nq]; [right|rewrite (T0 q Nq); apply Tn]. destruct q0 as [|z zs]; [discriminate N0|]. cbn [at_place] in N0. destruct (Tn (z :: zs)) as [E|E]; [congruence|exact E].
        * intros q b Hb. cbn [g_tree] in Hb. destruct (place_eqb_spec q q0) as [->|Nq].
          -- right. cbn [g_events g_tree]. rewrite Ev. split; [exact N1|]. rewrite F0 in Hb. injection Hb as <-. split; [reflexivity|]. rewrite C2 in R0. exact R0.
          -- left. apply Fl. rewrite <- Hb. destruct q; [reflexivity|]. cbn [at_place]. symmetry. apply T0, Nq.
        * intros x Hx. injection Hx as <-. split; [exact Ev|]. split; [reflexivity|]. split; [|cbn [fst]; intro Z0; destruct (Z0 eq_refl)]. intros _. cbn [g_tree]. rewrite C2 in R0. exists q0. split; [exact R0|]. split; [exact F0|]. destruct (at_place (g_tree w) q0) eqn:Y; [|reflexivity]. rewrite (K2 q0), Y in N0; [discriminate N0|congruence].
      + injection H2 as <- <-. split; [split; [exact C2|]; split; [exact S3|]; apply (kept_trans _ _ _ K2 K3)|]. split; [left; cbn [g_events]; rewrite Ev; exact A1|]. split; [exists [EGet url]; exact Ev|].
        rewrite (B3 e eq_refl). cbn [g_tree]. split; [exact Tn|]. split; [intros q b Hb; left; apply Fl, Hb|discriminate].
    - unfold pbind, pprint, happens, pfail in H2. injection H2 as <- <-. split; [exact St|]. split; [left; cbn [g_events]; rewrite Ev, !asked_app; cbn [asked]; rewrite app_nil_r; reflexivity|].
      split; [cbn [g_events]; rewrite Ev, <- app_assoc; eexists; reflexivity|]. split; [exact Tn|]. split; [intros q b Hb; left; apply Fl, Hb|discriminate]. }
  destruct (exists_at (g_cwd w) (g_tree w) (dirname lp)) eqn:Ed.
  - unfold pret at 1, pbind at 1 in H. refine (G w1 _ eq_refl _ _ _ H); [apply (step_refl w), S|auto|auto|]. intros q Hq. left. unfold exists_at, looks_up in X. cbn [w1 g_tree g_cwd] in *. rewrite Hq in X. destruct (at_place (g_tree w) q); [discriminate X|reflexivity].
  - unfold pbind at 1, pmakedirs, on_tree in H. cbn [w1 g_tree g_cwd g_events] in H. destruct S as (W&L). pose proof (makedirs_good (g_cwd w) (Datatypes.S (length (dirname lp))) (dirname lp) (g_tree w) W L) as (M&W').
    destruct (os_makedirs (g_cwd w) (Datatypes.S (length (dirname lp))) (dirname lp) (g_tree w)) as [[[]|e] t'] eqn:Em; cbn [snd] in M, W'.
    + assert (Tn : forall q, t' q = g_tree w q \/ g_tree w q = None) by (intro q; destruct (M q) as [E|(E&_)]; auto).
      assert (Fl : forall q b, at_place t' q = Some (NFile b) -> at_place (g_tree w) q = Some (NFile b)) by (intros [|z zs] b; [intro Y; exact Y|cbn [at_place]; destruct (M (z :: zs)) as [E|(_&E)]; rewrite E; [auto|discriminate]]).
      refine (G (Gworld t' (g_cwd w) (g_events w ++ [EGet url])) _ eq_refl Tn Fl _ H).
      * split; [reflexivity|]. split; [split; [exact W'|apply (more_live _ _ _ M L)]|apply more_kept, M].
      * cbn [g_tree g_cwd]. apply (after_makedirs w lp _ t' (conj W L) F Ed Em).
    + injection H as <- <-. assert (Tn : forall q, t' q = g_tree w q \/ g_tree w q = None) by (intro q; destruct (M q) as [E|(E&_)]; auto).
      assert (Fl : forall q b, at_place t' q = Some (NFile b) -> at_place (g_tree w) q = Some (NFile b)) by (intros [|z zs] b; [intro Y; exact Y|cbn [at_place]; destruct (M (z :: zs)) as [E|(_&E)]; rewrite E; [auto|discriminate]]).
      split; [split; [reflexivity|]; split; [split; [exact W'|apply (more_live _ _ _ M L)]|apply more_kept, M]|]. split; [left; exact A1|]. split; [exists [EGet url]; reflexivity|]. split; [exact Tn|]. split; [intros q b Hb; left; apply Fl, Hb|discriminate].
Qed.

(** ** Nothing is overwritten, whatever the fetchspec *)
Definition moves {A} (x : prog A) : Prop := forall w, sound w -> step_ok w (snd (x w)).
Lemma moves_bind {A B} (x : prog A) (f : A -> prog B) : moves x -> (forall a, moves (f a)) -> moves (pbind x f).
Proof. intros Hx Hf w S. specialize (Hx w S). unfold pbind. destruct (x w) as [[a|e] w1]; [|exact Hx]. apply (step_trans _ _ _ Hx). apply Hf. apply Hx. Qed.
Lemma moves_pure {A} (x : prog A) : (forall w, snd (x w) = w) -> moves x. Proof. intros H w S. rewrite H. apply step_refl, S. Qed.
Lemma moves_makedirs p : moves (pmakedirs p).
Proof.
  intros w S. pose proof S as (W&L). unfold pmakedirs, on_tree. pose proof (makedirs_good (g_cwd w) (Datatypes.S (length p)) p (g_tree w) W L) as (M&W'). destruct (os_makedirs _ _ _ (g_tree w)) as [r t]. cbn [snd] in *.
  split; [reflexivity|]. split; [split; [exact W'|apply (more_live _ _ _ M L)]|apply more_kept, M].
Qed.
Lemma if_missing_shape sub lp get ud resp w : (forall w0, snd (get w0) = w0) -> (exists_at (g_cwd w) (g_tree w) lp = true /\ pfetch_if_missing server sub lp get ud resp w = (Ok resp, w)) \/ (exists e, pfetch_if_missing server sub lp get ud resp w = (Err e, w)) \/
  (exists_at (g_cwd w) (g_tree w) lp = false /\ exists url, fst (get w) = Ok url /\ pfetch_if_missing server sub lp get ud resp w = match pfetch_url server url sub lp w with (Ok r, w') => (Ok (Some r), w') | (Err e, w') => (Err e, w') end).
Proof.
  intro Hg. unfold pfetch_if_missing, pbind, pexists, pkey, pindex, pres, pret. destruct (exists_at (g_cwd w) (g_tree w) lp); [left; split; reflexivity|]. right.
  specialize (Hg w). destruct (get w) as [[url|e] w1]; cbn [snd fst] in *; subst w1; [|left; eexists; reflexivity].
  destruct (ud_metaurls ud) as [metas|]; cbn [of_option]; [|left; eexists; reflexivity].
  destruct (nth_error metas 0); cbn [of_option]; [|left; eexists; reflexivity].
  destruct (ud_desc ud); cbn [of_option]; [|left; eexists; reflexivity]. right. split; [reflexivity|]. exists url. split; reflexivity.
Qed.
Lemma moves_if_missing sub lp get ud resp : fit_path lp -> (forall w0, snd (get w0) = w0) -> moves (pfetch_if_missing server sub lp get ud resp).
Proof.
  intros F Hg w S. destruct (if_missing_shape sub lp get ud resp w Hg) as [(_&E)|[(e&E)|(X&url&_&E)]]; rewrite E; [apply step_refl, S|apply step_refl, S|].
  destruct (pfetch_url server url sub lp w) as [r w'] eqn:Ef. pose proof (fetch_one url sub lp w r w' S F X Ef) as (H&_). destruct r; exact H.
Qed.
Lemma moves_urls sub ud lps : Forall fit_path lps -> forall urls i resp, moves (pfetch_urls server sub ud lps i urls resp).
Proof.
  intro F. induction urls as [|x urls IH]; intros i resp; cbn [pfetch_urls]; [apply moves_pure; reflexivity|].
  intros w S. unfold pbind at 1, pindex, pres. destruct (nth_error lps i) as [lp|] eqn:E; cbn [of_option]; [|apply step_refl, S].
  refine (moves_bind (pfetch_if_missing server sub lp (pret x) ud resp) (fun response => pfetch_urls server sub ud lps (Datatypes.S i) urls response) _ _ w S); [|intro a; apply IH]. apply moves_if_missing; [|reflexivity]. rewrite Forall_forall in F. apply F. apply (nth_error_In _ _ E).
Qed.
Lemma fit_replace : fit_path REPLACETHIS. Proof. intros a H. change (dirname REPLACETHIS) with (@nil N) in H. destruct a; discriminate H. Qed.
Lemma fit_fill sub copies : Forall (fun c => fit_path (path_join sub c)) copies -> forall i lps, Forall fit_path lps -> Forall fit_path (fill_paths sub i copies lps).
Proof.
  induction 1 as [|c copies Hc H IH]; intros i lps Hl; cbn [fill_paths]; [exact Hl|]. apply IH. apply Forall_forall. intros p Hp.
  assert (G : forall (l : list str) j, In p (set_nth j (path_join sub c) l) -> p = path_join sub c \/ In p l).
  { clear. induction l as [|y l IHl]; intros [|j] Hp; cbn [set_nth] in Hp; [destruct Hp|destruct Hp|destruct Hp as [<-|Hp]; [left; reflexivity|right; right; exact Hp]|destruct Hp as [<-|Hp]; [right; left; reflexivity|]]. destruct (IHl j Hp); [left; assumption|right; right; assumption]. }
  apply G in Hp as [-> | Hp]; [exact Hc|]. apply in_app_or in Hp as [Hp|[<-|[]]]; [rewrite Forall_forall in Hl; apply Hl, Hp|apply fit_replace].
Qed.
(** The local copies an entry names. *)
Definition named_copies (ud : urldict) : list str := match ud_localcopies ud with Some l => l | None => match ud_localcopy ud with Some c => [c] | None => [] end end.
Lemma moves_entries sub uds : Forall (fun ud => Forall (fun c => fit_path (path_join sub c)) (named_copies ud)) uds -> forall lps lp resp, Forall fit_path lps -> (forall p, lp = Some p -> fit_path p) ->
  moves (pfetch_entries server sub uds lps lp resp).
Proof.
  induction 1 as [|ud uds Hu H IH]; intros lps lp resp Hl Hp; cbn [pfetch_entries]; [apply moves_pure; reflexivity|].
  assert (G : forall lps lp, Forall fit_path lps -> (forall p, lp = Some p -> fit_path p) -> moves (go* response := match ud_urls ud with
     | Some urls => pfetch_urls server sub ud lps 0 urls resp
     | None => match lp with Some lp => pfetch_if_missing server sub lp (pkey (ud_url ud)) ud resp | None => pfail NameError end end in pfetch_entries server sub uds lps lp response)).
  { intros lps0 lp0 Hl0 Hp0. apply moves_bind; [|intro a; apply IH; assumption]. destruct (ud_urls ud) as [urls|]; [apply moves_urls, Hl0|]. destruct lp0 as [p|]; [|apply moves_pure; reflexivity]. apply moves_if_missing; [apply Hp0; reflexivity|]. intro w0. destruct (ud_url ud); reflexivity. }
  unfold named_copies in Hu. destruct (ud_localcopies ud) as [copies|].
  - intros w S. unfold pbind at 1, pret. cbn [fst snd]. apply G; [apply fit_fill; assumption|exact Hp|exact S].
  - destruct (ud_localcopy ud) as [c|]; [|intros w S; apply step_refl, S].
    intros w S. inversion Hu; subst. refine (G lps (Some (path_join sub c)) Hl _ w S). intros p E; injection E as <-; assumption.
Qed.

(** ** A complete fetchspec *)
Fixpoint pfetch_all (sub : str) (l : list (urldict * (str * str))) (response : reply) : prog reply :=
  match l with
  | [] => pret response
  | (ud, (lp, url)) :: r => go* response := pfetch_if_missing server sub lp (pret url) ud response in pfetch_all sub r response
  end.
Lemma purls_all sub ud lps : forall urls i response w, (forall j, (j < length urls)%nat -> exists p, nth_error lps (i + j) = Some p) ->
  pfetch_urls server sub ud lps i urls response w = pfetch_all sub (map (pair ud) (combine (firstn (length urls) (skipn i lps)) urls)) response w.
Proof.
  induction urls as [|x urls IH]; intros i response w H; [cbn [length firstn combine map]; reflexivity|]. cbn [pfetch_urls length]. destruct (H O) as (p&Hp); [cbn [length]; lia|]. rewrite Nat.add_0_r in Hp.
  assert (E : skipn i lps = p :: skipn (S i) lps) by (clear -Hp; revert lps Hp; induction i as [|i IH]; intros [|y l] Hp; try discriminate; [cbn [nth_error] in Hp; apply some_inj in Hp; subst; reflexivity|cbn [skipn nth_error] in *; apply IH, Hp]).
  rewrite E. cbn [firstn combine map pfetch_all]. unfold pbind at 1, pindex, pres. rewrite Hp. cbn [of_option]. unfold pbind. destruct (pfetch_if_missing server sub p (pret x) ud response w) as [[a|e] w1]; [|reflexivity].
  apply IH. intros j Hj. replace (S i + j)%nat with (i + S j)%nat by lia. apply H. cbn [length]. lia.
Qed.
Lemma pfetch_all_app sub l1 : forall l2 response w, pfetch_all sub (l1 ++ l2) response w = match pfetch_all sub l1 response w with (Ok r, w') => pfetch_all sub l2 r w' | (Err e, w') => (Err e, w') end.
Proof.
  induction l1 as [|[ud [lp url]] l1 IH]; intros l2 response w; [reflexivity|]. cbn [app pfetch_all]. unfold pbind. destruct (pfetch_if_missing _ _ _ _ _ _ w) as [[a|e] w1]; [apply IH|reflexivity].
Qed.
Lemma pentries_all sub uds : Forall complete_entry uds -> forall lps lp response w,
  pfetch_entries server sub uds lps lp response w = pfetch_all sub (concat (map (fun ud => map (pair ud) (targets sub ud)) uds)) response w.
Proof.
  induction 1 as [|ud uds (Hm&Hd&Hc) H IH]; intros lps lp response w; [reflexivity|]. cbn [pfetch_entries map concat]. rewrite pfetch_all_app. unfold targets at 1. destruct Hc as [(cs&us&E1&E2&L)|(c&x&E1&E2&E3&E4)].
  - rewrite E1, E2. unfold pbind at 1, pret at 1. cbn [fst snd]. unfold pbind at 1.
    assert (N : forall j, (j < length cs)%nat -> nth_error (fill_paths sub 0 cs lps) j = nth_error (map (path_join sub) cs) j).
    { intros j Hj. rewrite (fill_paths_nth (fun p => p) (fun _ => []) sub cs 0 lps j) by apply Nat.le_0_l. apply Nat.ltb_lt in Hj. change (0 + length cs)%nat with (length cs). rewrite Hj, Nat.sub_0_r. reflexivity. }
    rewrite purls_all.
    + cbn [skipn]. assert (F : firstn (length us) (fill_paths sub 0 cs lps) = map (path_join sub) cs).
      { rewrite L. assert (G : forall (X : Type) (l1 l2 : list X), length l2 = length cs -> (forall j, (j < length cs)%nat -> nth_error l1 j = nth_error l2 j) -> firstn (length cs) l1 = l2).
        { clear. intros X. induction (length cs) as [|n IHn]; intros l1 l2 Hl Hn; [destruct l2; [reflexivity|discriminate]|]. destruct l2 as [|y l2]; [discriminate|]. destruct l1 as [|x l1]; [specialize (Hn O ltac:(lia)); discriminate|].
          pose proof (Hn O ltac:(lia)) as H0. cbn [nth_error] in H0. apply some_inj in H0. subst y. cbn [firstn]. f_equal. apply IHn; [cbn [length] in Hl; lia|]. intros j Hj. apply (Hn (S j)). lia. }
        apply G; [apply map_length|exact N]. }
      rewrite F. destruct (pfetch_all _ _ response w) as [[r|e] w1]; [apply IH|reflexivity].
    + intros j Hj. cbn [Nat.add]. rewrite N by lia. destruct (nth_error (map (path_join sub) cs) j) as [p|] eqn:E; [eauto|]. apply nth_error_None in E. rewrite map_length in E. lia.
  - rewrite E1, E2, E3, E4. unfold pbind at 1. unfold pbind at 1. cbn [pkey pres of_option pret fst snd map pfetch_all]. unfold pbind.
    destruct (pfetch_if_missing server sub (path_join sub c) (pret x) ud response w) as [[r|e] w1] eqn:Ef.
    + change (pkey (Some x)) with (@pret str x). rewrite Ef. apply IH.
    + change (pkey (Some x)) with (@pret str x). rewrite Ef. reflexivity.
Qed.

(** What the downloads of a list of targets come to. *)
Definition downloaded (l : list (str * str)) (w w' : gworld) (l' : list (str * str)) : Prop :=
  subsequence l' l /\ asked (g_events w') = asked (g_events w) ++ map snd l' /\ (exists ev, g_events w' = g_events w ++ ev) /\
  Forall (fun x => exists_at (g_cwd w) (g_tree w) (fst x) = false) l' /\
  (forall q b, at_place (g_tree w') q = Some (NFile b) -> at_place (g_tree w) q = Some (NFile b) \/
     exists n p url, In (p, url) l' /\ nth_error (g_events w') n = Some (EGet url) /\ (length (g_events w) <= n)%nat /\ server n url = Some (200, b) /\ resolve (g_cwd w) (g_tree w') true p = Ok q) /\
  (forall p url, In (p, url) l -> In (p, url) l' \/ exists_at (g_cwd w) (g_tree w') p = true) /\
  (forall p url, In (p, url) l' -> exists n st b, nth_error (g_events w') n = Some (EGet url) /\ (length (g_events w) <= n)%nat /\ server n url = Some (st, b) /\
     (st = 200 -> exists q, resolve (g_cwd w) (g_tree w') true p = Ok q /\ at_place (g_tree w') q = Some (NFile b))).
Lemma downloads_all sub : forall l response r w w', sound w -> Forall (fun x => fit_path (fst (snd x))) l -> pfetch_all sub l response w = (Ok r, w') -> step_ok w w' /\ exists l', downloaded (map snd l) w w' l'.
Proof.
  induction l as [|[ud [lp url]] l IH]; intros response r w w' S F H.
  - cbn [pfetch_all] in H. unfold pret in H. injection H as <- <-. split; [apply step_refl, S|]. exists []. split; [constructor|]. split; [rewrite app_nil_r; reflexivity|]. split; [exists []; rewrite app_nil_r; reflexivity|]. split; [constructor|]. split; [auto|]. split; intros p url [].
  - inversion F as [|? ? F1 F2]; subst. cbn [fst snd] in F1. cbn [pfetch_all] in H. apply pbind_ok in H as (resp&w1&H1&H).
    destruct (if_missing_shape sub lp (pret url) ud response w ltac:(reflexivity)) as [(X&E)|[(e&E)|(X&url0&Eu&E)]]; [| rewrite E in H1; discriminate H1 |]; rewrite E in H1.
    + injection H1 as <- <-. destruct (IH _ _ _ _ S F2 H) as (St&l'&D1&D2&D3&D4&D5&D6&D7). split; [exact St|]. exists l'.
      split; [constructor; exact D1|]. split; [exact D2|]. split; [exact D3|]. split; [exact D4|]. split; [exact D5|]. split; [|exact D7]. intros p u0 [Hp|Hp]; [injection Hp as <- <-; right; apply (exists_kept _ (g_tree w)); [apply St|exact X]|apply D6, Hp].
    + cbn [pret fst] in Eu. injection Eu as <-. destruct (pfetch_url server url sub lp w) as [[x|e] w2] eqn:Ef; [|discriminate H1]. injection H1 as <- <-.
      pose proof (fetch_one url sub lp w _ _ S F1 X Ef) as (St1&_&_&Tn&Fl&Hok). destruct (Hok x eq_refl) as (Ev&Es&Hy&Hn). pose proof St1 as (C1&S1&K1).
      destruct (IH _ _ _ _ S1 F2 H) as (St&l'&D1&D2&D3&D4&D5&D6&D7). split; [apply (step_trans _ _ _ St1 St)|]. pose proof St as (C2&S2&K2).
      assert (Hlen : (length (g_events w) <= length (g_events w2))%nat) by (rewrite Ev, app_length; lia).
      destruct D3 as (ev&Dev).
      assert (N1 : nth_error (g_events w') (length (g_events w)) = Some (EGet url)). { rewrite Dev, Ev, <- app_assoc, nth_error_app2, Nat.sub_diag by lia. reflexivity. }
      exists ((lp, url) :: l'). split; [constructor; exact D1|]. split; [rewrite D2, Ev, asked_app; cbn [asked map snd]; rewrite <- app_assoc; reflexivity|]. split; [exists ([EGet url] ++ ev); rewrite Dev, Ev, <- app_assoc; reflexivity|]. split; [|split; [|split]].
      * constructor; [exact X|]. apply Forall_forall. intros y Hy0. rewrite Forall_forall in D4. specialize (D4 y Hy0). rewrite C1 in D4. destruct (exists_at (g_cwd w) (g_tree w) (fst y)) eqn:Y; [|reflexivity]. rewrite (exists_kept _ _ _ _ K1 Y) in D4. discriminate D4.
      * intros q b Hb. destruct (D5 q b Hb) as [Hq|(n&p&u0&Hi&Hn0&Hl&Hs&Hr)].
        -- destruct (Fl q b Hq) as [Hq0|(Hq0&Hs&Hr)]; [left; exact Hq0|]. right. exists (length (g_events w)), lp, url. split; [left; reflexivity|]. split; [exact N1|]. split; [lia|]. split; [exact Hs|]. apply (resolve_kept _ _ _ _ _ _ K2 Hr). congruence.
        -- right. exists n, p, u0. split; [right; exact Hi|]. split; [exact Hn0|]. split; [lia|]. split; [exact Hs|]. rewrite <- C1. exact Hr.
      * intros p u0 [Hp|Hp]; [left; left; exact Hp|]. destruct (D6 p u0 Hp) as [Hq|Hq]; [left; right; exact Hq|right; rewrite <- C1; exact Hq].
      * intros p u0 [Hp|Hp].
        -- injection Hp as <- <-. destruct x as [st b]. exists (length (g_events w)), st, b. split; [exact N1|]. split; [lia|]. split; [exact Es|]. cbn [fst snd] in Hy. intro E2. destruct (Hy E2) as (q&Hr&Hf&_). exists q. split; [apply (resolve_kept _ _ _ _ _ _ K2 Hr); congruence|]. rewrite K2; [exact Hf|congruence].
        -- destruct (D7 p u0 Hp) as (n&st&b&Hn0&Hl&Hs&Hr). exists n, st, b. rewrite C1 in Hr. split; [exact Hn0|]. split; [lia|]. split; [exact Hs|exact Hr].
Qed.
End Web.

(** The file fn can be read and holds the JSON object spec. *)
Definition holds_spec (w : gworld) (fn : str) (spec : dict json) : Prop :=
  exists_at (g_cwd w) (g_tree w) fn = true /\ exists text, read_text (g_cwd w) (g_tree w) fn = Ok text /\ json_loads text = Ok (JObj spec).
Definition with_events (w : gworld) (ev : list event) : gworld := Gworld (g_tree w) (g_cwd w) (g_events w ++ ev).

(** ** The fetchspec *)
(** A fetchspec that is not there: RuntimeError after a message; nothing is changed and nothing is requested. *)
Theorem C70_missing_fetchspec : forall server git sha1 tar fn w, exists_at (g_cwd w) (g_tree w) fn = false ->
  process_fetchspec server git sha1 tar fn w = (Err RuntimeError, with_events w [EPrint (u "fetchspec '" ++ fn ++ u "' not found.")]).
Proof. intros server git sha1 tar fn w H. unfold process_fetchspec. unfold pbind at 1, pexists. rewrite H. reflexivity. Qed.
Print Assumptions C70_missing_fetchspec.
(** A fetchspec that cannot be read, or is not JSON, or is not an object: an exception, and nothing is done. *)
Theorem C70_unreadable_fetchspec : forall server git sha1 tar fn w, exists_at (g_cwd w) (g_tree w) fn = true ->
  (forall e, read_text (g_cwd w) (g_tree w) fn = Err e -> process_fetchspec server git sha1 tar fn w = (Err e, w)) /\
  (forall text e, read_text (g_cwd w) (g_tree w) fn = Ok text -> json_loads text = Err e -> process_fetchspec server git sha1 tar fn w = (Err e, w)) /\
  (forall text j, read_text (g_cwd w) (g_tree w) fn = Ok text -> json_loads text = Ok j -> (forall o, j <> JObj o) -> process_fetchspec server git sha1 tar fn w = (Err AttributeError, w)).
Proof.
  intros server git sha1 tar fn w H. unfold process_fetchspec.
  split; [|split].
  - intros e E. unfold pbind at 1, pexists. rewrite H. cbn [negb]. unfold pbind at 1. rewrite E. reflexivity.
  - intros text e E1 E2. unfold pbind at 1, pexists. rewrite H. cbn [negb]. unfold pbind at 1. rewrite E1. unfold pbind, pres. rewrite E2. reflexivity.
  - intros text j E1 E2 E3. unfold pbind at 1, pexists. rewrite H. cbn [negb]. unfold pbind at 1. rewrite E1. unfold pbind at 1, pres at 1. rewrite E2. destruct j; try reflexivity. destruct (E3 _ eq_refl).
Qed.
Print Assumptions C70_unreadable_fetchspec.
Lemma process_reads server git sha1 tar fn spec w : holds_spec w fn spec -> process_fetchspec server git sha1 tar fn w =
  (go* _ := (if dmem (u "gitrepo_url") spec then
                    go* url := pres (get_str "gitrepo_url" spec) in
                    go* url := pres (of_option TypeError url) in
                    go* subdir := pres (get_str "download_subdir" spec) in
                    go* subdir := pkey subdir in
                    checkout_repository git url subdir
                  else if dmem (u "web_urls") spec then go* _ := pfetch_web_items server spec in pret tt
                  else pfail GenericException) in
        go* dlsubdir := pres (get_str "download_subdir" spec) in
        go* dlsubdir := pkey dlsubdir in
        go* abifsubdir := pres (get_str "abifloc_subdir" spec) in
        go* web := pres (get_list "web_urls" spec) in
        go* ext := pres (get_list "extfiles" spec) in
        go* srcfmt := pres (get_str "srcfmt" spec) in
        match abifsubdir, or_list web ext with
        | Some (c :: r), Some (x :: l) =>
            go* subs := pres (get_list "archive_subfiles" spec) in
            go* subs := pres (match subs with None => Ok None | Some q => match mapM subfile_of q with Ok y => Ok (Some y) | Err e => Err e end end) in
            go* entries := pres (mapM extfile_of (x :: l)) in
            on_tree (fun cwd => process_extfilelist cwd sha1 tar dlsubdir (c :: r) entries srcfmt subs)
        | _, _ => pret tt
        end) w.
Proof. intros (X&text&R&J). unfold process_fetchspec. unfold pbind at 1, pexists. rewrite X. cbn [negb]. unfold pbind at 1. rewrite R. unfold pbind at 1, pres at 1. rewrite J. reflexivity. Qed.
(** A fetchspec that says neither how to clone nor what to download: an exception, and nothing is done. *)
Theorem C70_invalid_fetchspec : forall server git sha1 tar fn spec w, holds_spec w fn spec -> dget (u "gitrepo_url") spec = None -> dget (u "web_urls") spec = None ->
  process_fetchspec server git sha1 tar fn w = (Err GenericException, w).
Proof. intros server git sha1 tar fn spec w H E1 E2. rewrite (process_reads server git sha1 tar fn spec w H). unfold dmem. rewrite E1, E2. reflexivity. Qed.
Print Assumptions C70_invalid_fetchspec.

(** ** git *)
(** A fetchspec with a repository, whose directory is not there, and without a directory for results: the repository is
    cloned from the current directory; whatever git's exit status is, cloning is reported and the run goes on. *)
Lemma str_member k spec v : dget (u k) spec = Some (JStr v) -> get_str k spec = Ok (Some v).
Proof. intro H. unfold get_str, member. rewrite H. reflexivity. Qed.
Lemma str_no_member k spec : dget (u k) spec = None -> get_str k spec = Ok None.
Proof. intro H. unfold get_str, member. rewrite H. reflexivity. Qed.
Lemma list_member k spec v : dget (u k) spec = Some (JArr v) -> get_list k spec = Ok (Some v).
Proof. intro H. unfold get_list, member. rewrite H. reflexivity. Qed.
Lemma list_no_member k spec : dget (u k) spec = None -> get_list k spec = Ok None.
Proof. intro H. unfold get_list, member. rewrite H. reflexivity. Qed.
(** Members with the types the program expects. *)
Definition typed_rest (spec : dict json) : Prop := (exists w, get_list "web_urls" spec = Ok w) /\ (exists x, get_list "extfiles" spec = Ok x) /\ (exists f, get_str "srcfmt" spec = Ok f).
Lemma no_results server git sha1 tar fn spec w dl : holds_spec w fn spec -> dget (u "download_subdir") spec = Some (JStr dl) -> dget (u "abifloc_subdir") spec = None -> typed_rest spec ->
  forall url, dget (u "gitrepo_url") spec = Some (JStr url) -> process_fetchspec server git sha1 tar fn w = checkout_repository git url dl w.
Proof.
  intros H Hd Ha ((lw&E1)&(lx&E2)&(f&E3)) url Hu. rewrite (process_reads server git sha1 tar fn spec w H). unfold dmem. rewrite Hu, (str_member _ _ _ Hu), (str_member _ _ _ Hd), (str_no_member _ _ Ha), E1, E2, E3.
  transitivity (match checkout_repository git url dl w with (Ok _, w1) => (Ok tt, w1) | (Err e, w1) => (Err e, w1) end); [|destruct (checkout_repository git url dl w) as [[[]|e] w1]; reflexivity].
  unfold pbind, pres, pkey, of_option, pret, pres. destruct (checkout_repository git url dl w) as [[[]|e] w1]; reflexivity.
Qed.
Theorem C70_clone : forall server git sha1 tar fn spec url dl w status t, holds_spec w fn spec -> dget (u "gitrepo_url") spec = Some (JStr url) -> dget (u "download_subdir") spec = Some (JStr dl) ->
  dget (u "abifloc_subdir") spec = None -> typed_rest spec -> exists_at (g_cwd w) (g_tree w) dl = false ->
  git (length (g_events w)) [u "git"; u "clone"; url; dl] (g_cwd w) (g_tree w) = Some (status, t) ->
  process_fetchspec server git sha1 tar fn w =
    (Ok tt, Gworld t (g_cwd w) (g_events w ++ [EGit [u "git"; u "clone"; url; dl] (g_cwd w); EPrint (u "Repository cloned from " ++ url ++ u " to " ++ dl)])).
Proof.
  intros server git sha1 tar fn spec url dl w status t H Hu Hd Ha Ht X G. rewrite (no_results server git sha1 tar fn spec w dl H Hd Ha Ht url Hu). unfold checkout_repository, pbind, pexists. rewrite X. unfold run_git. rewrite G.
  unfold pprint, happens. cbn [g_tree g_cwd g_events]. rewrite <- app_assoc. reflexivity.
Qed.
Print Assumptions C70_clone.
(** A repository whose directory is there: git pull runs in that directory, and the current directory is the same again
    afterwards. *)
Theorem C70_pull : forall server git sha1 tar fn spec url dl d w status t, holds_spec w fn spec -> dget (u "gitrepo_url") spec = Some (JStr url) -> dget (u "download_subdir") spec = Some (JStr dl) ->
  dget (u "abifloc_subdir") spec = None -> typed_rest spec -> at_place (g_tree w) (g_cwd w) = Some NDir -> good_place (g_cwd w) ->
  resolve (g_cwd w) (g_tree w) true dl = Ok d -> at_place (g_tree w) d = Some NDir ->
  git (S (length (g_events w))) [u "git"; u "pull"] d (g_tree w) = Some (status, t) -> well_formed t -> at_place t (g_cwd w) = Some NDir ->
  process_fetchspec server git sha1 tar fn w =
    (Ok tt, Gworld t (g_cwd w) (g_events w ++ [EPrint (u "Directory '" ++ dl ++ u "' exists."); EGit [u "git"; u "pull"] d; EPrint (u "Updating repository " ++ dl ++ u " from " ++ url ++ u " (git pull)")])).
Proof.
  intros server git sha1 tar fn spec url dl d w status t H Hu Hd Ha Ht L Gd R D G W L'. rewrite (no_results server git sha1 tar fn spec w dl H Hd Ha Ht url Hu).
  assert (X : exists_at (g_cwd w) (g_tree w) dl = true) by (apply exists_resolve; exists d; split; [exact R|congruence]).
  assert (B : walk max_links t true [] (g_cwd w) = Ok (g_cwd w)).
  { assert (Ef : filter solid (g_cwd w) = g_cwd w). { clear - Gd. induction (g_cwd w) as [|c l IH]; [reflexivity|]. cbn [filter]. rewrite (plain_solid c (Gd c (or_introl eq_refl))). f_equal. apply IH. intros x Hx. apply Gd. right; exact Hx. }
    pose proof (walk_dirs max_links t true [] W (g_cwd w) []) as Wd. rewrite app_nil_r, Ef, walk_nil in Wd. apply Wd; [|exact L']. intro Y. specialize (Gd _ Y). discriminate Gd. }
  unfold checkout_repository, pbind, pexists. rewrite X. unfold pprint at 1, happens at 1. unfold update_repository, pbind, pexists. cbn [g_tree g_cwd]. rewrite X. cbn [negb].
  unfold pgetcwd. cbn [g_tree g_cwd]. rewrite L. unfold pchdir, pchdir_to. cbn [g_tree g_cwd]. rewrite R, D. unfold run_git. cbn [g_tree g_cwd g_events].
  replace (length (g_events w ++ [EPrint (u "Directory '" ++ dl ++ u "' exists.")])) with (S (length (g_events w))) by (rewrite app_length; cbn [length]; lia). rewrite G.
  unfold pprint, happens. cbn [g_tree g_cwd g_events]. unfold pchdir_back, pchdir_to. cbn [g_tree g_cwd g_events]. rewrite B, L'. rewrite <- !app_assoc. reflexivity.
Qed.
Print Assumptions C70_pull.
Definition quiet {A} (x : prog A) : Prop := forall w, asked (g_events (snd (x w))) = asked (g_events w).
Lemma quiet_bind {A B} (x : prog A) (f : A -> prog B) : quiet x -> (forall a, quiet (f a)) -> quiet (pbind x f).
Proof. intros Hx Hf w. specialize (Hx w). unfold pbind. destruct (x w) as [[a|e] w1]; [|exact Hx]. cbn [snd] in Hx. rewrite <- Hx. apply Hf. Qed.
Lemma quiet_print line : quiet (pprint line).
Proof. intro w. unfold pprint, happens. cbn [snd g_events]. rewrite asked_app. apply app_nil_r. Qed.
Lemma quiet_git git args : quiet (run_git git args).
Proof. intro w. unfold run_git. destruct (git (length (g_events w)) args (g_cwd w) (g_tree w)) as [[st t]|]; [|reflexivity]. cbn [snd g_events]. rewrite asked_app. apply app_nil_r. Qed.
Lemma quiet_chdir find : quiet (pchdir_to find).
Proof. intro w. unfold pchdir_to. destruct (find (g_cwd w) (g_tree w)) as [p|e]; [|reflexivity]. destruct (at_place (g_tree w) p) as [[| |]|]; reflexivity. Qed.
Lemma git_quiet git url dl : quiet (checkout_repository git url dl).
Proof.
  assert (U : quiet (update_repository git url dl)).
  { unfold update_repository. apply quiet_bind; [intro w; reflexivity|]. intros []; cbn [negb]; [|apply quiet_print]. apply quiet_bind; [intro w; unfold pgetcwd; destruct (at_place (g_tree w) (g_cwd w)) as [[| |]|]; reflexivity|]. intro d.
    apply quiet_bind; [apply quiet_chdir|]. intros _. apply quiet_bind; [apply quiet_git|]. intros _. apply quiet_bind; [apply quiet_print|]. intros _. apply quiet_chdir. }
  unfold checkout_repository. apply quiet_bind; [intro w; reflexivity|]. intros []; [apply quiet_bind; [apply quiet_print|intros _; exact U]|]. apply quiet_bind; [apply quiet_git|]. intros _. apply quiet_print.
Qed.
Definition still {A} (x : prog A) : Prop := forall w, g_events (snd (x w)) = g_events w /\ g_cwd (snd (x w)) = g_cwd w.
Lemma still_bind {A B} (x : prog A) (f : A -> prog B) : still x -> (forall a, still (f a)) -> still (pbind x f).
Proof. intros Hx Hf w. specialize (Hx w). unfold pbind. destruct (x w) as [[a|e] w1]; [|exact Hx]. cbn [snd] in Hx. specialize (Hf a w1). destruct Hf, Hx. split; congruence. Qed.
Lemma still_pres {A} (r : result A) : still (pres r). Proof. intro w. split; reflexivity. Qed.
Lemma still_tree {A} (a : place -> act A) : still (on_tree a). Proof. intro w. unfold on_tree. destruct (a (g_cwd w) (g_tree w)). split; reflexivity. Qed.
Ltac stillness := repeat first [apply still_bind; [|intros ?] | apply still_pres | apply still_tree | (intro; split; reflexivity) | match goal with |- still (match ?x with _ => _ end) => destruct x end].
(** With gitrepo_url in the fetchspec nothing is requested from the web, whatever else it says. *)
Theorem C70_git_or_web : forall server git sha1 tar fn spec w, holds_spec w fn spec -> dget (u "gitrepo_url") spec <> None ->
  asked (g_events (snd (process_fetchspec server git sha1 tar fn w))) = asked (g_events w).
Proof.
  intros server git sha1 tar fn spec w H Hg. rewrite (process_reads server git sha1 tar fn spec w H). unfold dmem. destruct (dget (u "gitrepo_url") spec) as [j|]; [|congruence].
  match goal with |- context [pbind ?x ?f w] => assert (Q : asked (g_events (snd (x w))) = asked (g_events w)); [|unfold pbind at 1; destruct (x w) as [[a|e] w1]; [|exact Q]; cbn [snd] in Q; rewrite <- Q; assert (T : still (f a)) by stillness; destruct (T w1) as [T1 _]; rewrite T1; reflexivity] end.
  unfold pbind at 1, pres. destruct (get_str "gitrepo_url" spec) as [ou|e]; [|reflexivity]. unfold pbind at 1. destruct ou as [url|]; cbn [of_option]; [|reflexivity].
  unfold pbind at 1. destruct (get_str "download_subdir" spec) as [od|e]; [|reflexivity]. unfold pbind at 1, pkey, pres. destruct od as [dl|]; cbn [of_option]; [|reflexivity]. apply git_quiet.
Qed.
Print Assumptions C70_git_or_web.

(** ** Downloads *)
Lemma web_items_eq server spec dl entries uds w : dget (u "download_subdir") spec = Some (JStr dl) -> dget (u "web_urls") spec = Some (JArr entries) -> mapM urldict_of entries = Ok uds ->
  pfetch_web_items server spec w = (go* there := pexists dl in go* _ := (if there then pret tt else pmakedirs dl) in pfetch_entries server dl uds [] None None) w.
Proof.
  intros Hd Hw Hu. unfold pfetch_web_items. rewrite (str_member _ _ _ Hd), (list_member _ _ _ Hw). unfold pkey, pbind, pres, pexists, of_option.
  destruct ((if exists_at (g_cwd w) (g_tree w) dl then pret tt else pmakedirs dl) w) as [[[]|e] w1]; [|reflexivity]. rewrite Hu. reflexivity.
Qed.
(** Whatever the fetchspec and the servers, and however the downloading ends, no file, link or directory that is there is
    changed or removed, as long as no local path's directory part ends in '/.'. *)
Theorem C70_nothing_overwritten : forall server spec dl entries uds w, sound w -> dget (u "download_subdir") spec = Some (JStr dl) -> dget (u "web_urls") spec = Some (JArr entries) -> mapM urldict_of entries = Ok uds ->
  Forall (fun ud => Forall (fun c => fit_path (path_join dl c)) (named_copies ud)) uds ->
  let w' := snd (pfetch_web_items server spec w) in
  g_cwd w' = g_cwd w /\ sound w' /\ forall q, at_place (g_tree w) q <> None -> at_place (g_tree w') q = at_place (g_tree w) q.
Proof.
  intros server spec dl entries uds w S Hd Hw Hu F. rewrite (web_items_eq server spec dl entries uds w Hd Hw Hu). cbv zeta.
  refine (moves_bind (pexists dl) (fun there : bool => go* _ := (if there then pret tt else pmakedirs dl) in pfetch_entries server dl uds [] None None) _ _ w S).
  - apply moves_pure. reflexivity.
  - intros there. apply moves_bind; [destruct there; [apply moves_pure; reflexivity|apply moves_makedirs]|]. intros _. apply moves_entries; [exact F|constructor|discriminate].
Qed.
Print Assumptions C70_nothing_overwritten.
Lemma web_items_ok server spec dl entries uds w r w' : sound w -> dget (u "download_subdir") spec = Some (JStr dl) -> dget (u "web_urls") spec = Some (JArr entries) -> mapM urldict_of entries = Ok uds -> Forall complete_entry uds ->
  pfetch_web_items server spec w = (Ok r, w') ->
  exists w1, pfetch_all server dl (concat (map (fun ud => map (pair ud) (targets dl ud)) uds)) None w1 = (Ok r, w') /\ step_ok w w1 /\ g_events w1 = g_events w /\ more_dirs (g_tree w) (g_tree w1) /\ (exists_at (g_cwd w) (g_tree w) dl = true -> w1 = w).
Proof.
  intros S Hd Hw Hu Hc H. rewrite (web_items_eq server spec dl entries uds w Hd Hw Hu) in H. unfold pbind at 1, pexists in H. apply pbind_ok in H as ([]&w1&H1&H).
  rewrite (pentries_all server dl uds Hc) in H. exists w1. split; [exact H|]. destruct (exists_at (g_cwd w) (g_tree w) dl).
  - unfold pret in H1. injection H1 as <-. split; [apply step_refl, S|]. split; [reflexivity|]. split; [apply more_refl|reflexivity].
  - pose proof (moves_makedirs dl w S) as M. rewrite H1 in M. cbn [snd] in M. split; [exact M|]. unfold pmakedirs, on_tree in H1. pose proof S as (W&L). pose proof (makedirs_good (g_cwd w) (Datatypes.S (length dl)) dl (g_tree w) W L) as (M2&_).
    destruct (os_makedirs _ _ dl (g_tree w)) as [rr t]. injection H1 as -> <-. split; [reflexivity|]. split; [exact M2|discriminate].
Qed.
(** A complete fetchspec, downloaded without an exception: some targets l' were requested, in the order of the fetchspec,
    and none of these was there before; every target was requested or leads to something now; a request that was answered
    with 200 has its target lead to a file with the whole answer; and every file now there was there before or is such an answer. *)
Theorem C70_downloads : forall server spec dl entries uds w r w', sound w -> dget (u "download_subdir") spec = Some (JStr dl) -> dget (u "web_urls") spec = Some (JArr entries) -> mapM urldict_of entries = Ok uds ->
  Forall complete_entry uds -> let l := concat (map (targets dl) uds) in Forall (fun x => fit_path (fst x)) l -> pfetch_web_items server spec w = (Ok r, w') ->
  exists l', subsequence l' l /\ asked (g_events w') = asked (g_events w) ++ map snd l' /\
    (forall p url, In (p, url) l' -> exists_at (g_cwd w) (g_tree w) p = false) /\
    (forall p url, In (p, url) l -> In (p, url) l' \/ exists_at (g_cwd w) (g_tree w') p = true) /\
    (forall p url, In (p, url) l' -> exists n st b, nth_error (g_events w') n = Some (EGet url) /\ (length (g_events w) <= n)%nat /\ server n url = Some (st, b) /\
       (st = 200 -> exists q, resolve (g_cwd w) (g_tree w') true p = Ok q /\ at_place (g_tree w') q = Some (NFile b))) /\
    (forall q b, at_place (g_tree w') q = Some (NFile b) -> at_place (g_tree w) q = Some (NFile b) \/
       exists n p url, In (p, url) l' /\ nth_error (g_events w') n = Some (EGet url) /\ (length (g_events w) <= n)%nat /\ server n url = Some (200, b) /\ resolve (g_cwd w) (g_tree w') true p = Ok q).
Proof.
  intros server spec dl entries uds w r w' S Hd Hw Hu Hc l F H. destruct (web_items_ok server spec dl entries uds w r w' S Hd Hw Hu Hc H) as (w1&H1&St1&Ev&M&_).
  assert (El : map snd (concat (map (fun ud => map (pair ud) (targets dl ud)) uds)) = l).
  { unfold l. clear. induction uds as [|ud uds IH]; [reflexivity|]. cbn [map concat]. rewrite map_app, IH, map_map. f_equal. cbn [snd]. apply map_id. }
  assert (F1 : Forall (fun x : urldict * (str * str) => fit_path (fst (snd x))) (concat (map (fun ud => map (pair ud) (targets dl ud)) uds))).
  { rewrite Forall_forall in *. intros x Hx. apply F. rewrite <- El. apply in_map, Hx. }
  pose proof St1 as (C1&S1&K1). destruct (downloads_all server dl _ _ _ _ _ S1 F1 H1) as (St&l'&D1&D2&_&D4&D5&D6&D7). rewrite El in *. rewrite Ev in *. rewrite C1 in *.
  exists l'. split; [exact D1|]. split; [exact D2|]. split; [|split; [exact D6|split; [exact D7|]]].
  - intros p url Hp. rewrite Forall_forall in D4. specialize (D4 _ Hp). cbn [fst] in D4. destruct (exists_at (g_cwd w) (g_tree w) p) eqn:X; [|reflexivity]. rewrite (exists_kept _ _ _ _ K1 X) in D4. discriminate D4.
  - intros q b Hb. destruct (D5 q b Hb) as [Hq|Hq]; [left|right; exact Hq]. destruct q as [|z zs]; [exact Hq|]. cbn [at_place] in *. destruct (M (z :: zs)) as [E|(_&E)]; congruence.
Qed.
Print Assumptions C70_downloads.
(** If the download directory and all targets are there, nothing is requested and nothing changes. *)
Theorem C70_no_second_download : forall server spec dl entries uds w, sound w -> dget (u "download_subdir") spec = Some (JStr dl) -> dget (u "web_urls") spec = Some (JArr entries) -> mapM urldict_of entries = Ok uds ->
  Forall complete_entry uds -> exists_at (g_cwd w) (g_tree w) dl = true -> (forall p url, In (p, url) (concat (map (targets dl) uds)) -> exists_at (g_cwd w) (g_tree w) p = true) ->
  pfetch_web_items server spec w = (Ok None, w).
Proof.
  intros server spec dl entries uds w S Hd Hw Hu Hc Hx Ht. rewrite (web_items_eq server spec dl entries uds w Hd Hw Hu). unfold pbind at 1, pexists. rewrite Hx. unfold pbind, pret at 1.
  rewrite (pentries_all server dl uds Hc). assert (G : forall l, (forall x, In x l -> exists_at (g_cwd w) (g_tree w) (fst (snd x)) = true) -> pfetch_all server dl l None w = (Ok None, w)).
  { induction l as [|[ud [lp url]] l IH]; intro Hl; [reflexivity|]. cbn [pfetch_all]. unfold pbind, pfetch_if_missing, pexists. unfold pbind at 1. rewrite (Hl _ (or_introl eq_refl) : exists_at (g_cwd w) (g_tree w) lp = true). apply IH. intros x Hx0. apply Hl. right; exact Hx0. }
  apply G. intros [ud [p url]] Hp. cbn [fst snd]. apply (Ht p url). apply in_concat in Hp as (k&Hk&Hp). apply in_map_iff in Hk as (ud'&<-&Hk). apply in_map_iff in Hp as (x&E&Hp). injection E as -> ->. apply in_concat. exists (targets dl ud). split; [apply in_map, Hk|exact Hp].
Qed.
Print Assumptions C70_no_second_download.

(** ** From the fetchspec to the ABIF file *)
Lemma extfilelist_one cwd sha1 tar dl ab x d fmt cs loc subs t t' : convertible fmt -> (x_srcfmt x = Some fmt \/ unnamed x /\ d = Some fmt) -> copies x = Some cs -> x_abifloc x = Some loc -> well_formed t -> at_place t cwd = Some NDir ->
  process_extfilelist cwd sha1 tar dl ab [x] d subs t = (Ok tt, t') ->
  exists t2, more_dirs t t2 /\ convert_files_to_abif cwd sha1 fmt (map (path_join dl) cs) (path_join ab loc) (x_desc x) t2 = (Ok tt, t').
Proof.
  intros Hf Hd Hc Hl W L H. unfold process_extfilelist in H. unfold abind at 1 in H.
  assert (Eo : or_else (x_srcfmt x) d = Some fmt). { assert (fmt <> []) by (destruct Hf as [->|[->| ->]]; discriminate). destruct Hd as [E|(E&->)]; [rewrite E; destruct fmt; [congruence|reflexivity]|apply or_else_unnamed, E]. }
  assert (G : forall t2, process_entries cwd sha1 tar dl ab subs [x] d t2 = (Ok tt, t') -> convert_files_to_abif cwd sha1 fmt (map (path_join dl) cs) (path_join ab loc) (x_desc x) t2 = (Ok tt, t')).
  { intros t2 H2. cbn [process_entries] in H2. rewrite Eo in H2. unfold abind at 1 in H2.
    assert (E : process_entry cwd sha1 tar dl ab subs x (Some fmt) t2 = convert_files_to_abif cwd sha1 fmt (map (path_join dl) cs) (path_join ab loc) (x_desc x) t2).
    { unfold process_entry. assert (E1 : is_fmt (Some fmt) "abif" = false) by (destruct Hf as [->|[->| ->]]; reflexivity). assert (E2 : is_fmt (Some fmt) "debtally" || is_fmt (Some fmt) "preflib" || is_fmt (Some fmt) "sftxt" = true) by (destruct Hf as [->|[->| ->]]; reflexivity).
      rewrite E1, E2. unfold copies in Hc. unfold abind at 1. destruct (x_localcopies x) as [l|].
      - injection Hc as ->. cbn [aret]. rewrite Hl. reflexivity.
      - destruct (x_localcopy x) as [c|]; [|discriminate Hc]. injection Hc as <-. cbn [akey lift of_option aret abind]. rewrite Hl. reflexivity. }
    rewrite E in H2. destruct (convert_files_to_abif cwd sha1 fmt (map (path_join dl) cs) (path_join ab loc) (x_desc x) t2) as [[[]|e] t3]; [exact H2|discriminate H2]. }
  pose proof (makedirs_good cwd (S (length ab)) ab t W L) as (M&_). destruct (exists_at cwd t ab); [exists t; split; [apply more_refl|apply G, H]|].
  destruct (os_makedirs cwd (S (length ab)) ab t) as [[[]|e] t2]; [|discriminate H]. cbn [snd] in M. exists t2. split; [exact M|apply G, H].
Qed.
Lemma read_kept cwd t t2 p b : tree_kept t t2 -> exists_at cwd t p = true -> read_text cwd t2 p = Ok b -> read_text cwd t p = Ok b.
Proof.
  intros K X R. apply exists_resolve in X as (q&E&Hq). pose proof (resolve_presolve _ _ _ _ (resolve_kept _ _ _ _ _ _ K E Hq)) as E2. apply resolve_presolve in E. unfold read_text, read_place in *. rewrite E2, (K q Hq) in R. rewrite E. exact R.
Qed.
Lemma process_web server git sha1 tar fn spec w w' dl ab entry x ds : holds_spec w fn spec -> dget (u "gitrepo_url") spec = None -> dget (u "download_subdir") spec = Some (JStr dl) -> dget (u "web_urls") spec = Some (JArr [entry]) ->
  dget (u "abifloc_subdir") spec = Some (JStr ab) -> ab <> [] -> extfile_of entry = Ok x -> get_str "srcfmt" spec = Ok ds -> process_fetchspec server git sha1 tar fn w = (Ok tt, w') ->
  exists r w1 subs, pfetch_web_items server spec w = (Ok r, w1) /\ on_tree (fun cwd => process_extfilelist cwd sha1 tar dl ab [x] ds subs) w1 = (Ok tt, w').
Proof.
  intros Hs Hg Hd Hw Ha Hab Hx Hds H. rewrite (process_reads server git sha1 tar fn spec w Hs) in H. unfold dmem in H. rewrite Hg, Hw in H. apply pbind_ok in H as ([]&w1&H1&H). apply pbind_ok in H1 as (r&w0&H1&E). unfold pret in E. injection E as ->.
  rewrite (str_member _ _ _ Hd), (str_member _ _ _ Ha), (list_member _ _ _ Hw), Hds in H. apply pbind_ok in H as (a1&w2&E&H). unfold pres in E. injection E as <- <-. apply pbind_ok in H as (a1&w2&E&H). unfold pkey, pres, of_option in E. injection E as <- <-.
  apply pbind_ok in H as (a1&w2&E&H). unfold pres in E. injection E as <- <-. apply pbind_ok in H as (a1&w2&E&H). unfold pres in E. injection E as <- <-. apply pbind_ok in H as (ext&w2&E&H). unfold pres in E. injection E as Eext <-.
  apply pbind_ok in H as (a1&w2&E&H). unfold pres in E. injection E as <- <-. destruct ab as [|c ab]; [congruence|]. cbn [or_list] in H. apply pbind_ok in H as (sl&w2&E&H). unfold pres in E. injection E as Esl <-.
  apply pbind_ok in H as (subs&w2&E&H). unfold pres in E. injection E as Es <-. apply pbind_ok in H as (es&w2&E&H). unfold pres in E. injection E as Ees <-. cbn [mapM] in Ees. rewrite Hx in Ees. cbn [bind] in Ees. injection Ees as <-. exists r, w1, subs. split; [exact H1|exact H].
Qed.
(** One entry with any number of downloads, in one of the formats that are converted, with servers that answer 200: after a
    run without an exception the result's file holds the conversion of the downloads' texts.  Each text is that of the file
    that was there before; or that of the answer to a request for the download; or the file came to be there during the run,
    before its turn.  Nothing that was there before has changed, except where the result is. *)
Theorem C70_end_to_end : forall server git sha1 tar fn spec w w' dl ab entry ud x fmt cs loc, sound w -> holds_spec w fn spec -> dget (u "gitrepo_url") spec = None -> dget (u "download_subdir") spec = Some (JStr dl) ->
  dget (u "web_urls") spec = Some (JArr [entry]) -> dget (u "abifloc_subdir") spec = Some (JStr ab) -> ab <> [] -> urldict_of entry = Ok ud -> complete_entry ud -> Forall (fun t => fit_path (fst t)) (targets dl ud) ->
  extfile_of entry = Ok x -> (x_srcfmt x = Some fmt /\ dget (u "srcfmt") spec = None \/ unnamed x /\ dget (u "srcfmt") spec = Some (JStr fmt)) -> convertible fmt -> copies x = Some cs -> x_abifloc x = Some loc ->
  (forall n url st b, server n url = Some (st, b) -> st = 200) -> process_fetchspec server git sha1 tar fn w = (Ok tt, w') ->
  exists l' blobs text bytes p, subsequence l' (targets dl ud) /\ asked (g_events w') = asked (g_events w) ++ map snd l' /\ (forall p url, In (p, url) l' -> exists_at (g_cwd w) (g_tree w) p = false) /\
    Forall2 (fun c b => let path := path_join dl c in
       read_text (g_cwd w) (g_tree w) path = Ok b \/
       (exists url n content s, In (path, url) l' /\ nth_error (g_events w') n = Some (EGet url) /\ server n url = Some (200, content) /\ decode_strict content = Ok s /\ b = universal_newlines s) \/
       (exists_at (g_cwd w) (g_tree w) path = false /\ forall url, ~ In (path, url) l')) cs blobs /\
    convert_text_to_abif sha1 fmt blobs false false (described x) = Ok text /\
    let out := path_join ab loc in presolve (g_cwd w) (g_tree w') true (is_abs out) (pnames out) = Ok p /\ at_place (g_tree w') p = Some (NFile bytes) /\ utf8_encode text = Ok bytes /\ g_cwd w' = g_cwd w /\
    forall q, q <> p -> at_place (g_tree w) q <> None -> at_place (g_tree w') q = at_place (g_tree w) q.
Proof.
  intros server git sha1 tar fn spec w w' dl ab entry ud x fmt cs loc S Hs Hg Hd Hw Ha Hab Hu Hc F Hx Hfm Hcv Hcs Hloc A H.
  assert (Hds : exists ds, get_str "srcfmt" spec = Ok ds /\ (x_srcfmt x = Some fmt \/ unnamed x /\ ds = Some fmt)).
  { destruct Hfm as [(E1&E2)|(E1&E2)]; [exists None; split; [apply str_no_member, E2|left; exact E1]|exists (Some fmt); split; [apply str_member, E2|right; auto]]. }
  destruct Hds as (ds&Hds&Hfmt). destruct (process_web server git sha1 tar fn spec w w' dl ab entry x ds Hs Hg Hd Hw Ha Hab Hx Hds H) as (r&w1&subs&H1&H2).
  assert (Hm : mapM urldict_of [entry] = Ok [ud]) by (cbn [mapM]; rewrite Hu; reflexivity).
  assert (Et : concat (map (targets dl) [ud]) = targets dl ud) by (cbn [map concat]; apply app_nil_r).
  assert (Hcl : Forall complete_entry [ud]) by (constructor; [exact Hc|constructor]).
  pose proof (C70_downloads server spec dl [entry] [ud] w r w1 S Hd Hw Hm Hcl) as D. cbv zeta in D. rewrite Et in D. destruct (D F H1) as (l'&D1&D2&D3&D4&D5&D6). clear D.
  destruct (web_items_ok server spec dl [entry] [ud] w r w1 S Hd Hw Hm Hcl H1) as (w0&H0&St0&_&_&_). cbn [map concat] in H0. rewrite app_nil_r in H0. pose proof St0 as (_&S0&_).
  assert (F0 : Forall (fun z : urldict * (str * str) => fit_path (fst (snd z))) (map (pair ud) (targets dl ud))) by (apply Forall_map; cbn [snd]; exact F).
  destruct (downloads_all server dl _ _ _ _ _ S0 F0 H0) as (St1&_). pose proof (step_trans _ _ _ St0 St1) as (C1&(W1&L1)&K1).
  unfold on_tree in H2. destruct (process_extfilelist (g_cwd w1) sha1 tar dl ab [x] ds subs (g_tree w1)) as [rr t'] eqn:Ep. injection H2 as -> <-. cbn [g_tree g_cwd g_events].
  destruct (extfilelist_one (g_cwd w1) sha1 tar dl ab x ds fmt cs loc subs (g_tree w1) t' Hcv Hfmt Hcs Hloc W1 L1 Ep) as (t2&M2&Hconv). apply convert_files_ok in Hconv as (blobs&text&bytes&p&R&T&P1&P2&P3&P4&P5).
  pose proof (kept_trans _ _ _ K1 (more_kept _ _ M2)) as K2.
  exists l', blobs, text, bytes, p. split; [exact D1|]. split; [exact D2|]. split; [exact D3|]. split; [|split; [exact T|]]; [|cbv zeta; rewrite C1 in P1; split; [exact P1|]; split; [exact P2|]; split; [exact P3|]; split; [exact C1|]].
  - rewrite C1 in R. clear - R D5 K2 A M2.
    assert (Q : forall c b, read_text (g_cwd w) t2 (path_join dl c) = Ok b -> let path := path_join dl c in
       read_text (g_cwd w) (g_tree w) path = Ok b \/
       (exists url n content s, In (path, url) l' /\ nth_error (g_events w1) n = Some (EGet url) /\ server n url = Some (200, content) /\ decode_strict content = Ok s /\ b = universal_newlines s) \/
       (exists_at (g_cwd w) (g_tree w) path = false /\ forall url, ~ In (path, url) l')).
    { intros c b Hr path. fold path in Hr. destruct (exists_at (g_cwd w) (g_tree w) path) eqn:X; [left; apply (read_kept _ _ _ _ _ K2 X Hr)|]. right.
      assert (Hdec : (exists url, In (path, url) l') \/ forall url, ~ In (path, url) l').
      { clear. induction l' as [|[p0 u0] l IH]; [right; intros url []|]. destruct (str_eqb_spec p0 path) as [->|N1]; [left; exists u0; left; reflexivity|]. destruct IH as [(url&Hi)|Hi]; [left; exists url; right; exact Hi|]. right. intros url [E|E]; [injection E as E _; congruence|apply (Hi url E)]. }
      destruct Hdec as [(url&Hi)|Hi]; [left|right; auto]. destruct (D5 _ _ Hi) as (n&st&content&Hn&_&Hsv&Hq). pose proof (A _ _ _ _ Hsv) as ->. destruct (Hq eq_refl) as (q&Hr0&Hf0). exists url, n, content.
      pose proof (more_kept _ _ M2) as K. assert (Hne : at_place (g_tree w1) q <> None) by congruence. pose proof (resolve_presolve _ _ _ _ (resolve_kept _ _ _ _ _ _ K Hr0 Hne)) as Hr1. unfold read_text, read_place in Hr. rewrite Hr1, (K q Hne), Hf0 in Hr.
      destruct (decode_strict content) as [s|e]; [|discriminate Hr]. injection Hr as <-. exists s. auto. }
    remember (map (path_join dl) cs) as fs eqn:Efs. revert cs Efs. induction R as [|f b fs bs Hf HF IH]; intros [|c cs] E; try discriminate E; [constructor|]. injection E as -> ->. constructor; [apply Q, Hf|]. apply (IH cs eq_refl).
  - intros q Nq Hq. rewrite <- (K2 q Hq). destruct q as [|z zs]; [reflexivity|]. cbn [at_place] in *. destruct (P4 (z :: zs) Nq) as [E|(E&_)]; [exact E|]. exfalso. apply Hq. pose proof (K2 (z :: zs) Hq) as X. cbn [at_place] in X. congruence.
Qed.
Print Assumptions C70_end_to_end.
(** One entry with one download that is not there yet: exactly its URL is requested, the answer is saved under the local
    path, and the result's file holds the conversion of the answer's text. *)
Theorem C70_one_file : forall server git sha1 tar fn spec w w' dl ab entry ud x fmt c url loc, sound w -> holds_spec w fn spec -> dget (u "gitrepo_url") spec = None -> dget (u "download_subdir") spec = Some (JStr dl) ->
  dget (u "web_urls") spec = Some (JArr [entry]) -> dget (u "abifloc_subdir") spec = Some (JStr ab) -> ab <> [] -> urldict_of entry = Ok ud -> complete_entry ud -> targets dl ud = [(path_join dl c, url)] -> fit_path (path_join dl c) ->
  extfile_of entry = Ok x -> (x_srcfmt x = Some fmt /\ dget (u "srcfmt") spec = None \/ unnamed x /\ dget (u "srcfmt") spec = Some (JStr fmt)) -> convertible fmt -> copies x = Some [c] -> x_abifloc x = Some loc ->
  exists_at (g_cwd w) (g_tree w) dl = true -> exists_at (g_cwd w) (g_tree w) (path_join dl c) = false -> (forall n u0 st b, server n u0 = Some (st, b) -> st = 200) ->
  process_fetchspec server git sha1 tar fn w = (Ok tt, w') ->
  exists content s text bytes p, g_events w' = g_events w ++ [EGet url] /\ server (length (g_events w)) url = Some (200, content) /\ decode_strict content = Ok s /\
    convert_text_to_abif sha1 fmt [universal_newlines s] false false (described x) = Ok text /\
    let out := path_join ab loc in presolve (g_cwd w) (g_tree w') true (is_abs out) (pnames out) = Ok p /\ at_place (g_tree w') p = Some (NFile bytes) /\ utf8_encode text = Ok bytes /\
    (exists q, at_place (g_tree w) q = None /\ (q <> p -> resolve (g_cwd w) (g_tree w') true (path_join dl c) = Ok q /\ at_place (g_tree w') q = Some (NFile content))) /\
    forall q, q <> p -> at_place (g_tree w) q <> None -> at_place (g_tree w') q = at_place (g_tree w) q.
Proof.
  intros server git sha1 tar fn spec w w' dl ab entry ud x fmt c url loc S Hs Hg Hd Hw Ha Hab Hu Hc Ht F Hx Hfm Hcv Hcs Hloc Xd Xp A H.
  assert (Hds : exists ds, get_str "srcfmt" spec = Ok ds /\ (x_srcfmt x = Some fmt \/ unnamed x /\ ds = Some fmt)).
  { destruct Hfm as [(E1&E2)|(E1&E2)]; [exists None; split; [apply str_no_member, E2|left; exact E1]|exists (Some fmt); split; [apply str_member, E2|right; auto]]. }
  destruct Hds as (ds&Hds&Hfmt). destruct (process_web server git sha1 tar fn spec w w' dl ab entry x ds Hs Hg Hd Hw Ha Hab Hx Hds H) as (r&w1&subs&H1&H2).
  assert (Hm : mapM urldict_of [entry] = Ok [ud]) by (cbn [mapM]; rewrite Hu; reflexivity).
  assert (Hcl : Forall complete_entry [ud]) by (constructor; [exact Hc|constructor]).
  destruct (web_items_ok server spec dl [entry] [ud] w r w1 S Hd Hw Hm Hcl H1) as (w0&H0&_&_&_&Ew). rewrite (Ew Xd) in *. clear w0 Ew. cbn [map concat] in H0. rewrite app_nil_r, Ht in H0. cbn [map pfetch_all] in H0.
  apply pbind_ok in H0 as (resp&w2&H0&E). unfold pret in E. injection E as -> ->.
  destruct (if_missing_shape server dl (path_join dl c) (pret url) ud None w ltac:(reflexivity)) as [(X&_)|[(e&E)|(_&url0&Eu&E)]]; [congruence|rewrite E in H0; discriminate H0|]. cbn [pret fst] in Eu. injection Eu as <-. rewrite E in H0.
  destruct (pfetch_url server url dl (path_join dl c) w) as [[y|e] w2] eqn:Ef; [|discriminate H0]. injection H0 as _ ->.
  pose proof (fetch_one server url dl (path_join dl c) w _ _ S F Xp Ef) as ((C1&(W1&L1)&K1)&_&_&Tn&Fl&Hok). destruct (Hok y eq_refl) as (Ev&Es&Hy&_). destruct y as [st content]. pose proof (A _ _ _ _ Es) as ->. destruct (Hy eq_refl) as (q&Hr&Hf&Hq0). cbn [snd] in Hf.
  unfold on_tree in H2. destruct (process_extfilelist (g_cwd w1) sha1 tar dl ab [x] ds subs (g_tree w1)) as [rr t'] eqn:Ep. injection H2 as -> <-. cbn [g_tree g_cwd g_events].
  destruct (extfilelist_one (g_cwd w1) sha1 tar dl ab x ds fmt [c] loc subs (g_tree w1) t' Hcv Hfmt Hcs Hloc W1 L1 Ep) as (t2&M2&Hconv). apply convert_files_ok in Hconv as (blobs&text&bytes&p&R&T&P1&P2&P3&P4&P5).
  pose proof (more_kept _ _ M2) as KM. pose proof (kept_trans _ _ _ K1 KM) as K2. assert (Hne : at_place (g_tree w1) q <> None) by congruence.
  pose proof (resolve_kept _ _ _ _ _ _ KM Hr Hne) as Hr2. inversion R as [|f b fs bs Rb Rn]; subst. inversion Rn; subst. rewrite C1 in Rb, P1. unfold read_text, read_place in Rb. rewrite (resolve_presolve _ _ _ _ Hr2), (KM q Hne), Hf in Rb.
  destruct (decode_strict content) as [s|e] eqn:Ed; [|discriminate Rb]. injection Rb as <-. exists content, s, text, bytes, p. split; [exact Ev|]. split; [exact Es|]. split; [exact Ed|]. split; [exact T|]. cbv zeta. split; [exact P1|]. split; [exact P2|]. split; [exact P3|].
  assert (Pk : forall q0, q0 <> p -> at_place t2 q0 <> None -> at_place t' q0 = at_place t2 q0).
  { intros q0 N0 Hqq. destruct q0 as [|z zs]; [reflexivity|]. cbn [at_place] in *. destruct (P4 (z :: zs) N0) as [E0|(E0&_)]; [exact E0|congruence]. }
  split.
  - exists q. split; [exact Hq0|]. intro Nq. assert (Hq2 : at_place t2 q <> None) by (rewrite (KM q Hne); exact Hne). split; [|rewrite (Pk q Nq Hq2), (KM q Hne); exact Hf].
    apply (resolve_kindred _ t2); [|exact Hr2|exact Hq2]. intros q0 n0 Hn0. destruct (place_eqb_spec q0 p) as [->|N0]; [destruct (P5 n0 Hn0) as (b0&->); exists (NFile bytes); split; [exact P2|right; exact I]|]. exists n0. split; [rewrite (Pk q0 N0); congruence|left; reflexivity].
  - intros q0 N0 Hq1. rewrite (Pk q0 N0); [apply K2, Hq1|]. rewrite (K2 q0 Hq1). exact Hq1.
Qed.
Print Assumptions C70_one_file.

(** ** The command line *)
(** Without a fetchspec: a message and exit status 1 (sys.exit), nothing else. *)
Theorem C70_no_arguments : forall server git sha1 tar abif w, fetchmgr_main server git sha1 tar abif [] w = (Err SystemExit, with_events w [EPrint (u "Please provide at least one fetchspec (see fetchspecs/*)")]).
Proof. reflexivity. Qed.
Print Assumptions C70_no_arguments.
(** Fetchspecs are processed one after the other, each in the world the earlier ones left; an exception ends the program. *)
Theorem C70_in_order : forall server git sha1 tar abif fns fn w, fns <> [] ->
  (forall w1, fetchmgr_main server git sha1 tar abif fns w = (Ok tt, w1) -> fetchmgr_main server git sha1 tar abif (fns ++ [fn]) w = process_fetchspec server git sha1 tar fn w1) /\
  (forall e w1, fetchmgr_main server git sha1 tar abif fns w = (Err e, w1) -> fetchmgr_main server git sha1 tar abif (fns ++ [fn]) w = (Err e, w1)).
Proof.
  intros server git sha1 tar abif fns fn w Hn.
  assert (G : forall l w, process_all server git sha1 tar (l ++ [fn]) w = match process_all server git sha1 tar l w with (Ok _, w1) => process_fetchspec server git sha1 tar fn w1 | (Err e, w1) => (Err e, w1) end).
  { induction l as [|f l IH]; intro w0; cbn [app process_all]; unfold pbind.
    - unfold pret. destruct (process_fetchspec server git sha1 tar fn w0) as [[[]|e] w1]; reflexivity.
    - destruct (process_fetchspec server git sha1 tar f w0) as [[[]|e] w1]; [apply IH|reflexivity]. }
  assert (E : forall l, l <> [] -> fetchmgr_main server git sha1 tar abif l w = process_all server git sha1 tar l w) by (intros [|f l] Hl; [congruence|reflexivity]).
  rewrite (E fns Hn), (E (fns ++ [fn])) by (destruct fns; discriminate). rewrite G. split; intros; rewrite H; reflexivity.
Qed.
Print Assumptions C70_in_order.
(** The value of --abif makes no difference. *)
Theorem C70_abif_option_ignored : forall server git sha1 tar a1 a2 fns w, fetchmgr_main server git sha1 tar a1 fns w = fetchmgr_main server git sha1 tar a2 fns w.
Proof. reflexivity. Qed.
Print Assumptions C70_abif_option_ignored.

(** The same in the words of the fetchspec: "url", "localcopy", "metaurls", "desc" and "abifloc" of its only entry and its own
    "srcfmt". *)
Theorem C70_plain_entry : forall server git sha1 tar fn spec w w' dl ab fields fmt c url loc desc meta metas, sound w -> holds_spec w fn spec -> dget (u "gitrepo_url") spec = None ->
  dget (u "download_subdir") spec = Some (JStr dl) -> dget (u "web_urls") spec = Some (JArr [JObj fields]) -> dget (u "abifloc_subdir") spec = Some (JStr ab) -> ab <> [] -> dget (u "srcfmt") spec = Some (JStr fmt) -> convertible fmt ->
  dget (u "url") fields = Some (JStr url) -> dget (u "localcopy") fields = Some (JStr c) -> dget (u "metaurls") fields = Some (JArr (JStr meta :: map JStr metas)) -> dget (u "desc") fields = Some (JStr desc) -> dget (u "abifloc") fields = Some (JStr loc) ->
  dget (u "urls") fields = None -> dget (u "localcopies") fields = None -> dget (u "srcfmt") fields = None -> fit_path (path_join dl c) ->
  exists_at (g_cwd w) (g_tree w) dl = true -> exists_at (g_cwd w) (g_tree w) (path_join dl c) = false -> (forall n u0 st b, server n u0 = Some (st, b) -> st = 200) ->
  process_fetchspec server git sha1 tar fn w = (Ok tt, w') ->
  exists content s text bytes p, g_events w' = g_events w ++ [EGet url] /\ server (length (g_events w)) url = Some (200, content) /\ decode_strict content = Ok s /\
    convert_text_to_abif sha1 fmt [universal_newlines s] false false (match desc with [] => [] | _ => [(u "description", desc)] end) = Ok text /\
    let out := path_join ab loc in presolve (g_cwd w) (g_tree w') true (is_abs out) (pnames out) = Ok p /\ at_place (g_tree w') p = Some (NFile bytes) /\ utf8_encode text = Ok bytes /\
    forall q, q <> p -> at_place (g_tree w) q <> None -> at_place (g_tree w') q = at_place (g_tree w) q.
Proof.
  intros server git sha1 tar fn spec w w' dl ab fields fmt c url loc desc meta metas S Hs Hg Hd Hw Ha Hab Hf Hcv F1 F2 F3 F4 F5 F6 F7 F8 Fp Xd Xp A H.
  assert (Hm : get_strs "metaurls" fields = Ok (Some (meta :: metas))).
  { unfold get_strs, member. rewrite F3. assert (G : forall l, all_strs (map JStr l) = Ok l) by (induction l as [|x l IH]; [reflexivity|cbn [map all_strs]; rewrite IH; reflexivity]). cbn [all_strs]. rewrite G. reflexivity. }
  assert (N1 : get_strs "localcopies" fields = Ok None) by (unfold get_strs, member; rewrite F7; reflexivity). assert (N2 : get_strs "urls" fields = Ok None) by (unfold get_strs, member; rewrite F6; reflexivity).
  assert (Hu : urldict_of (JObj fields) = Ok (Urldict None (Some c) None (Some url) (Some (meta :: metas)) (Some desc))).
  { unfold urldict_of. rewrite N1, (str_member _ _ _ F2), N2, (str_member _ _ _ F1), Hm, F4. reflexivity. }
  assert (Hx : extfile_of (JObj fields) = Ok (Extfile None (Some c) None (Some desc) (Some loc))).
  { unfold extfile_of. rewrite N1, (str_member _ _ _ F2), (str_no_member _ _ F8), (str_member _ _ _ F4), (str_member _ _ _ F5). reflexivity. }
  destruct (C70_one_file server git sha1 tar fn spec w w' dl ab (JObj fields) _ _ fmt c url loc S Hs Hg Hd Hw Ha Hab Hu (complete_one _ _ _ _ _) eq_refl Fp Hx) as (content&s&text&bytes&p&E1&E2&E3&E4&E5); try assumption; try reflexivity.
  - right. split; [left; reflexivity|exact Hf].
  - exists content, s, text, bytes, p. split; [exact E1|]. split; [exact E2|]. split; [exact E3|]. split; [destruct desc; exact E4|]. cbv zeta in *. destruct E5 as (E5&E6&E7&_&E8). auto.
Qed.
Print Assumptions C70_plain_entry.

(** ** Examples, and what does not hold *)
Definition spec_text : str := u "{""download_subdir"": ""dl"", ""abifloc_subdir"": ""abif"", ""srcfmt"": ""preflib"", ""web_urls"": [{""url"": ""http://x/p"", ""metaurls"": [""http://x""], ""desc"": ""an election"", ""localcopy"": ""new/p.toc"", ""abifloc"": ""p.abif""}]}".
Definition git_text : str := u "{""gitrepo_url"": ""http://g/r.git"", ""download_subdir"": ""repo""}".
Definition world1 : gworld := Gworld (tree_of ((home ++ [u "s.json"], NFile spec_text) :: (home ++ [u "g.json"], NFile git_text) :: base)) home [].
Definition toc : list N := u "# ALTERNATIVE NAME 1: Ann" ++ [10%N] ++ u "# ALTERNATIVE NAME 2: Bob" ++ [13%N; 10%N] ++ u "4: 2,1" ++ [10%N].
Definition one_server : nat -> str -> option (Z * list N) := fun _ url => if str_eqb url (u "http://x/p") then Some (200, toc) else None.
Definition no_git : nat -> list str -> place -> tree -> option (Z * tree) := fun _ _ _ _ => None.
Lemma run_result {A} (x : prog A) w a : fst (x w) = Ok a -> x w = (Ok a, snd (x w)).
Proof. intro H. destruct (x w). cbn [fst] in H. subst. reflexivity. Qed.
Lemma world1_sound : sound world1.
Proof. split; [apply wf_tree_of; vm_compute; reflexivity|reflexivity]. Qed.
Example C70_sample : exists spec entry ud x w', holds_spec world1 (u "s.json") spec /\ dget (u "web_urls") spec = Some (JArr [entry]) /\ urldict_of entry = Ok ud /\ complete_entry ud /\
  targets (u "dl") ud = [(u "dl/new/p.toc", u "http://x/p")] /\ fit_path (u "dl/new/p.toc") /\ extfile_of entry = Ok x /\ copies x = Some [u "new/p.toc"] /\ exists_at (g_cwd world1) (g_tree world1) (u "dl/new/p.toc") = false /\
  process_fetchspec one_server no_git no_sha no_tar (u "s.json") world1 = (Ok tt, w') /\ g_events w' = [EGet (u "http://x/p")] /\ g_tree w' (home ++ [u "dl"; u "new"; u "p.toc"]) = Some (NFile toc) /\
  read_text home (g_tree w') (u "abif/p.abif") = Ok (u "#------- metadata -------" ++ [10%N] ++ u "{ballotcount: 4}" ++ [10%N] ++ u "#------ candlines ------" ++ [10%N] ++ u "=Ann:[Ann]" ++ [10%N] ++ u "=Bob:[Bob]" ++ [10%N]
        ++ u "#------- votelines ------" ++ [10%N] ++ u "4:Bob>Ann" ++ [10%N]).
Proof.
  eexists. eexists. eexists. eexists. exists (snd (process_fetchspec one_server no_git no_sha no_tar (u "s.json") world1)). split; [split; [vm_compute; reflexivity|eexists; split; [vm_compute; reflexivity|vm_compute; reflexivity]]|]. split; [vm_compute; reflexivity|]. split; [vm_compute; reflexivity|].
  split; [split; [eexists; eexists; reflexivity|split; [eexists; reflexivity|right; eexists; eexists; split; [reflexivity|split; [reflexivity|split; reflexivity]]]]|]. split; [vm_compute; reflexivity|]. split.
  { intros a E. apply (f_equal (@rev _)) in E. rewrite rev_app_distr in E. change (dirname (u "dl/new/p.toc")) with (u "dl/new") in E. discriminate E. }
  split; [vm_compute; reflexivity|]. split; [reflexivity|]. split; [vm_compute; reflexivity|]. split; [apply run_result; vm_compute; reflexivity|]. split; [vm_compute; reflexivity|]. split; vm_compute; reflexivity.
Qed.
(** A clone that fails (git's exit status is not 0) is reported as a success. *)
Theorem C70_failed_clone_refuted : exists git w w', (forall n args d t, git n args d t = Some (128, t)) /\
  process_fetchspec one_server git no_sha no_tar (u "g.json") w = (Ok tt, w') /\ In (EPrint (u "Repository cloned from http://g/r.git to repo")) (g_events w') /\ exists_at (g_cwd w') (g_tree w') (u "repo") = false.
Proof.
  exists (fun _ _ _ t => Some (128, t)), world1. eexists. split; [reflexivity|]. split; [apply run_result; vm_compute; reflexivity|]. split; [right; left; vm_compute; reflexivity|vm_compute; reflexivity].
Qed.
Print Assumptions C70_failed_clone_refuted.
(** A local path whose directory part ends in '/.' can make a download overwrite a file that was there. *)
Definition dot_text : str := u "{""download_subdir"": ""dl"", ""web_urls"": [{""url"": ""http://x/p"", ""metaurls"": [""http://x""], ""desc"": ""an election"", ""localcopy"": ""new/.././t2.abif""}]}".
Theorem C70_dot_overwrites_refuted : exists w w', sound w /\ read_text (g_cwd w) (g_tree w) (u "dl/t2.abif") = Ok (u "3:B>A") /\
  process_fetchspec one_server no_git no_sha no_tar (u "s.json") w = (Ok tt, w') /\ g_tree w' (home ++ [u "dl"; u "t2.abif"]) = Some (NFile toc).
Proof.
  exists (Gworld (tree_of ((home ++ [u "s.json"], NFile dot_text) :: base)) home []). eexists. split; [split; [apply wf_tree_of; vm_compute; reflexivity|reflexivity]|]. split; [vm_compute; reflexivity|]. split; [apply run_result; vm_compute; reflexivity|vm_compute; reflexivity].
Qed.
Print Assumptions C70_dot_overwrites_refuted.
