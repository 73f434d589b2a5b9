(** * SpecfileFacts: walking, making directories and writing files in a tree *)

From Verif Require Import PyBase PyFacts UrlText FetchModel PosixModel PosixFacts ExtfileModel PropsExtfile SpecfileModel.
Local Open Scope N_scope.

(** Nothing that was there has changed. *)
Definition tree_kept (t t' : tree) : Prop := forall q, at_place t q <> None -> at_place t' q = at_place t q.
Lemma kept_refl t : tree_kept t t. Proof. intros q H. reflexivity. Qed.
Lemma kept_trans t1 t2 t3 : tree_kept t1 t2 -> tree_kept t2 t3 -> tree_kept t1 t3.
Proof. intros H1 H2 q H. rewrite H2; [apply H1, H|]. rewrite H1; assumption. Qed.
Lemma more_kept t t' : more_dirs t t' -> tree_kept t t'.
Proof. intros M q H. destruct q as [|c q]; [reflexivity|]. cbn [at_place] in *. destruct (M (c :: q)) as [E|(E&_)]; [exact E|congruence]. Qed.
Lemma put_kept t p n : at_place t p = None -> tree_kept t (put p n t).
Proof. intros H q Hq. apply at_put_other. intros ->. congruence. Qed.

Lemma wf_up t cur : well_formed t -> at_place t cur = Some NDir -> at_place t (removelast cur) = Some NDir.
Proof. intros W H. destruct cur as [|c cur _] using rev_ind; [reflexivity|]. rewrite removelast_last. apply (at_wf t cur c W). congruence. Qed.
Lemma walk_parent t f : well_formed t -> forall n cur l p, at_place t cur = Some NDir -> walk n t f cur l = Ok p -> at_place t p = None ->
  exists p0 c, p = p0 ++ [c] /\ at_place t p0 = Some NDir.
Proof.
  intros W. induction n as [n IHn] using (well_founded_induction Wf_nat.lt_wf). intros cur l. revert cur. induction l as [|c r IH]; intros cur p Hc H Hp; [rewrite walk_nil in H; injection H as <-; congruence|].
  rewrite walk_cons in H. destruct (str_eqb c [] || str_eqb c dot); [apply (IH cur p Hc H Hp)|]. destruct (str_eqb c dotdot); [apply (IH _ p (wf_up t cur W Hc) H Hp)|].
  destruct (at_place t (cur ++ [c])) as [[|b|g]|] eqn:E.
  - apply (IH _ p E H Hp).
  - destruct r; [|discriminate H]. injection H as <-. congruence.
  - destruct (match r with [] => negb f | _ => false end); [injection H as <-; congruence|]. destruct n as [|k]; [discriminate H|]. apply (IHn k ltac:(lia) _ _ p) in H; auto. destruct (is_abs g); [reflexivity|exact Hc].
  - destruct r; [|discriminate H]. injection H as <-. exists cur, c. auto.
Qed.
(** What was there is still there, files perhaps with other content. *)
Definition alike (n n' : node) : Prop := n' = n \/ match n, n' with NFile _, NFile _ => True | _, _ => False end.
Definition kindred (t t' : tree) : Prop := forall q n, at_place t q = Some n -> exists n', at_place t' q = Some n' /\ alike n n'.
Lemma kept_kindred t t' : tree_kept t t' -> kindred t t'.
Proof. intros K q n H. exists n. split; [rewrite K; congruence|left; reflexivity]. Qed.
Lemma walk_kindred t t' f : kindred t t' -> forall n cur l p, walk n t f cur l = Ok p -> at_place t p <> None -> walk n t' f cur l = Ok p.
Proof.
  intros K. induction n as [n IHn] using (well_founded_induction Wf_nat.lt_wf). intros cur l. revert cur. induction l as [|c r IH]; intros cur p H Hp; [rewrite walk_nil in *; exact H|].
  rewrite walk_cons in H |- *. destruct (str_eqb c [] || str_eqb c dot); [apply (IH _ _ H Hp)|]. destruct (str_eqb c dotdot); [apply (IH _ _ H Hp)|].
  destruct (at_place t (cur ++ [c])) as [nd|] eqn:E; [|destruct r; [injection H as <-; congruence|discriminate H]].
  destruct (K _ _ E) as (n'&E'&Ha). rewrite E'. destruct Ha as [-> |Ha]; [|destruct nd as [|b|g], n' as [|b'|g']; try destruct Ha; exact H]. destruct nd as [|b|g]; [apply (IH _ _ H Hp)|exact H|].
  destruct (match r with [] => negb f | _ => false end); [exact H|]. destruct n as [|k]; [discriminate H|]. apply (IHn k ltac:(lia)); assumption.
Qed.
Lemma walk_kept t t' f : tree_kept t t' -> forall n cur l p, walk n t f cur l = Ok p -> at_place t p <> None -> walk n t' f cur l = Ok p.
Proof. intro K. apply walk_kindred, kept_kindred, K. Qed.
Lemma walk_solid t f r : r <> [] -> forall n l1 l2 cur, filter solid l1 = filter solid l2 -> walk n t f cur (l1 ++ r) = walk n t f cur (l2 ++ r).
Proof.
  intro Hr. induction n as [n IHn] using (well_founded_induction Wf_nat.lt_wf).
  assert (G : forall l2 cur c l1', solid c = true -> filter solid l2 = c :: filter solid l1' -> exists l2', filter solid l2' = filter solid l1' /\ walk n t f cur (l2 ++ r) = walk n t f cur (c :: l2' ++ r)).
  { induction l2 as [|d l2 IH]; intros cur c l1' Hc E; [discriminate E|]. cbn [filter] in E. destruct (solid d) eqn:Ed; [injection E as -> E; exists l2; auto|].
    destruct (IH cur c l1' Hc E) as (l2'&E1&E2). exists l2'. split; [exact E1|]. rewrite <- E2. cbn [app]. rewrite walk_cons. unfold solid in Ed. apply negb_false_iff in Ed. rewrite Ed. reflexivity. }
  induction l1 as [|c l1 IH]; intros l2 cur E.
  - cbn [app filter] in *. induction l2 as [|d l2 IH2]; [reflexivity|]. cbn [filter] in E. destruct (solid d) eqn:Ed; [discriminate E|]. rewrite (IH2 E). cbn [app]. rewrite walk_cons. unfold solid in Ed. apply negb_false_iff in Ed. rewrite Ed. reflexivity.
  - cbn [filter] in E. destruct (solid c) eqn:Ec; [|cbn [app]; rewrite walk_cons; unfold solid in Ec; apply negb_false_iff in Ec; rewrite Ec; apply IH, E].
    destruct (G l2 cur c l1 Ec (eq_sym E)) as (l2'&E1&E2). rewrite E2. cbn [app]. rewrite !walk_cons. unfold solid in Ec. apply negb_true_iff in Ec. rewrite Ec.
    destruct (str_eqb c dotdot); [apply IH; congruence|]. assert (Hn : forall l, match l ++ r with [] => negb f | _ => false end = false) by (intro l; destruct (l ++ r) eqn:X; [apply app_eq_nil in X as [_ X]; congruence|reflexivity]).
    rewrite !Hn. destruct (at_place t (cur ++ [c])) as [[|b|g]|].
    + apply IH. congruence.
    + destruct (l1 ++ r) eqn:X1; [apply app_eq_nil in X1 as [_ X1]; congruence|]. destruct (l2' ++ r) eqn:X2; [apply app_eq_nil in X2 as [_ X2]; congruence|]. reflexivity.
    + destruct n as [|k]; [reflexivity|]. rewrite !app_assoc. apply (IHn k ltac:(lia)). rewrite !filter_app. congruence.
    + destruct (l1 ++ r) eqn:X1; [apply app_eq_nil in X1 as [_ X1]; congruence|]. destruct (l2' ++ r) eqn:X2; [apply app_eq_nil in X2 as [_ X2]; congruence|]. reflexivity.
Qed.
(** Walking on through a directory that has just been made. *)
Lemma walk_through t p f : at_place t p = None -> forall n cur l, walk n t false cur l = Ok p -> forall r, exists k, walk n (put p (Some NDir) t) f cur (l ++ r) = walk k (put p (Some NDir) t) f p r.
Proof.
  intro Hp. assert (Hne : p <> []) by (intros ->; discriminate Hp). induction n as [n IHn] using (well_founded_induction Wf_nat.lt_wf). intros cur l. revert cur.
  induction l as [|c l IH]; intros cur H r; [rewrite walk_nil in H; injection H as ->; exists n; reflexivity|]. cbn [app]. rewrite walk_cons in H |- *.
  destruct (str_eqb c [] || str_eqb c dot); [apply (IH _ H)|]. destruct (str_eqb c dotdot); [apply (IH _ H)|].
  destruct (place_eqb_spec (cur ++ [c]) p) as [E|N1].
  - rewrite E in *. rewrite Hp in H. rewrite at_put_same by exact Hne. destruct l as [|d l]; [exists n; reflexivity|discriminate H].
  - rewrite at_put_other by exact N1. destruct (at_place t (cur ++ [c])) as [[|b|g]|].
    + apply (IH _ H).
    + destruct l; [injection H as H; congruence|discriminate H].
    + destruct l as [|d l]; [cbn [negb] in H; injection H as H; congruence|]. destruct n as [|k]; [discriminate H|]. rewrite app_assoc. cbn [app]. apply (IHn k ltac:(lia)). exact H.
    + destruct l; [injection H as H; congruence|discriminate H].
Qed.

(** ** Making directories *)
Section Dirs.
Variable cwd : place.
Lemma start_dir t p : at_place t cwd = Some NDir -> at_place t (start_of cwd p) = Some NDir.
Proof. unfold start_of. destruct (is_abs p); [reflexivity|auto]. Qed.
Lemma more_live t t' : more_dirs t t' -> at_place t cwd = Some NDir -> at_place t' cwd = Some NDir.
Proof. intros M H. rewrite (more_kept _ _ M); [exact H|congruence]. Qed.
Lemma os_mkdir_more p t : more_dirs t (snd (os_mkdir cwd p t)). Proof. apply mkdir_more. Qed.
Lemma os_mkdir_wf p t : well_formed t -> at_place t cwd = Some NDir -> well_formed (snd (os_mkdir cwd p t)).
Proof.
  intros W L. unfold os_mkdir, mkdir_place. destruct p as [|c p]; [exact W|]. destruct (presolve cwd t false _ _) as [q|e] eqn:E; [|exact W]. destruct (at_place t q) eqn:Eq; [exact W|]. cbn [snd].
  destruct (walk_parent t false W _ _ _ q (start_dir t (c :: p) L) E Eq) as (p0&d&->&H0). apply wf_put; [exact W|exact H0|congruence].
Qed.
Lemma makedirs_good n : forall p t, well_formed t -> at_place t cwd = Some NDir -> more_dirs t (snd (os_makedirs cwd n p t)) /\ well_formed (snd (os_makedirs cwd n p t)).
Proof.
  induction n as [|n IH]; intros p t W L; [split; [apply more_refl|exact W]|]. cbn [os_makedirs].
  assert (M : forall t1, more_dirs t t1 -> well_formed t1 -> more_dirs t (snd (os_mkdir cwd p t1)) /\ well_formed (snd (os_mkdir cwd p t1))).
  { intros t1 M1 W1. split; [apply (more_trans _ _ _ M1), os_mkdir_more|apply os_mkdir_wf; [exact W1|apply (more_live t); assumption]]. }
  destruct (match basename p with [] => (dirname (dirname p), basename (dirname p)) | tl => (dirname p, tl) end) as [head tail].
  destruct (nonempty head && nonempty tail && negb (exists_at cwd t head)); [|apply M; [apply more_refl|exact W]].
  destruct (IH head t W L) as (M1&W1). destruct (os_makedirs cwd n head t) as [[[]|e] t1]; cbn [snd] in M1, W1.
  - destruct (str_eqb tail dot); [split; assumption|apply M; assumption].
  - destruct e; try (split; assumption). destruct (str_eqb tail dot); [split; assumption|apply M; assumption].
Qed.
(** The name os.makedirs looks at last. *)
Definition last_part (p : str) : str := match basename p with [] => basename (dirname p) | tl => tl end.
Lemma makedirs_last n p t t' : last_part p <> dot -> well_formed t -> at_place t cwd = Some NDir -> os_makedirs cwd n p t = (Ok tt, t') ->
  exists t1, more_dirs t t1 /\ well_formed t1 /\ os_mkdir cwd p t1 = (Ok tt, t').
Proof.
  destruct n as [|n]; [discriminate|]. cbn [os_makedirs]. intros Hd W L H.
  assert (E : snd (match basename p with [] => (dirname (dirname p), basename (dirname p)) | tl => (dirname p, tl) end) = last_part p) by (unfold last_part; destruct (basename p); reflexivity).
  destruct (match basename p with [] => (dirname (dirname p), basename (dirname p)) | tl => (dirname p, tl) end) as [head tail]. cbn [snd] in E. subst tail.
  destruct (nonempty head && nonempty (last_part p) && negb (exists_at cwd t head)); [|exists t; split; [apply more_refl|auto]].
  pose proof (makedirs_good n head t W L) as (M1&W1). destruct (str_eqb_spec (last_part p) dot) as [|N1]; [congruence|].
  destruct (os_makedirs cwd n head t) as [[[]|e] t1]; cbn [snd] in M1, W1; [exists t1; auto|]. destruct e; try discriminate H. exists t1; auto.
Qed.
(** A directory made by os.makedirs is new, empty, and where the path leads. *)
Lemma makedirs_fresh n d t t' : last_part d <> dot -> well_formed t -> at_place t cwd = Some NDir -> os_makedirs cwd n d t = (Ok tt, t') ->
  exists p, at_place t p = None /\ at_place t' p = Some NDir /\ (forall c, at_place t' (p ++ [c]) = None) /\
    forall f r, exists k, walk max_links t' f (start_of cwd d) (pnames d ++ r) = walk k t' f p r.
Proof.
  intros Hd W L H. destruct (makedirs_last n d t t' Hd W L H) as (t1&M1&W1&H1). unfold os_mkdir, mkdir_place in H1. destruct d as [|c d]; [discriminate H1|].
  destruct (presolve cwd t1 false _ _) as [p|e] eqn:E; [|discriminate H1]. destruct (at_place t1 p) eqn:Ep; [discriminate H1|]. injection H1 as <-. exists p.
  assert (Hne : p <> []) by (intros ->; discriminate Ep).
  split; [destruct (at_place t p) eqn:Et; [|reflexivity]; rewrite (more_kept _ _ M1), Et in Ep; [discriminate Ep|congruence]|]. split; [apply at_put_same, Hne|]. split.
  - intro x. rewrite at_put_other; [|intro X; apply (f_equal (@length _)) in X; rewrite app_length in X; cbn in X; lia]. destruct (at_place t1 (p ++ [x])) eqn:X; [|reflexivity]. pose proof (at_wf t1 p x W1) as Hx. rewrite X, Ep in Hx. discriminate Hx. discriminate.
  - intros f r. apply walk_through; [exact Ep|exact E].
Qed.
End Dirs.

(** ** The parts of a path *)
Lemma has_slash_dec s : In slash s \/ ~ In slash s.
Proof. destruct (in_dec N.eq_dec slash s); auto. Qed.
Lemma existsb_slash s : existsb (N.eqb slash) s = true <-> In slash s.
Proof. split; intro H; [apply existsb_exists in H as (x&Hx&E); apply N.eqb_eq in E; subst x; exact Hx|apply existsb_exists; exists slash; split; [exact H|reflexivity]]. Qed.
(** A path with a slash: what stands before and after the last one. *)
Lemma upto_split s : In slash s -> exists h b, s = h ++ slash :: b /\ ~ In slash b /\ upto_last_slash s = h ++ [slash].
Proof.
  induction s as [|c s IH]; intros [].
  - subst c. destruct (has_slash_dec s) as [Hs|Hs].
    + destruct (IH Hs) as (h&b&E&Hb&U). exists (slash :: h), b. cbn [app]. split; [rewrite <- E; reflexivity|]. split; [exact Hb|]. cbn [upto_last_slash existsb]. rewrite U. reflexivity.
    + exists [], s. split; [reflexivity|]. split; [exact Hs|]. cbn [upto_last_slash existsb]. change (slash =? slash) with true. cbn [orb]. assert (E : upto_last_slash s = []). { destruct s as [|d s]; [reflexivity|]. cbn [upto_last_slash]. destruct (existsb (N.eqb slash) (d :: s)) eqn:X; [apply existsb_slash in X; destruct (Hs X)|reflexivity]. } rewrite E. reflexivity.
  - destruct (IH H) as (h&b&E&Hb&U). exists (c :: h), b. split; [rewrite E; reflexivity|]. split; [exact Hb|]. cbn [upto_last_slash]. rewrite (proj2 (existsb_slash (c :: s))) by (right; exact H). rewrite U. reflexivity.
Qed.
Lemma upto_none s : ~ In slash s -> upto_last_slash s = [].
Proof. destruct s as [|c s]; [reflexivity|]. intro H. cbn [upto_last_slash]. destruct (existsb (N.eqb slash) (c :: s)) eqn:X; [apply existsb_slash in X; destruct (H X)|reflexivity]. Qed.
Lemma basename_split h b : ~ In slash b -> basename (h ++ slash :: b) = b.
Proof.
  intro Hb. unfold basename. destruct (upto_split (h ++ slash :: b)) as (h'&b'&E&Hb'&U); [apply in_or_app; right; left; reflexivity|]. rewrite U.
  assert (G : b' = b). { clear - E Hb Hb'. revert h' E. induction h as [|x h IH]; intros [|y h'] E; cbn [app] in E.
    - injection E; auto.
    - injection E as _ E. subst b. exfalso. apply Hb. apply in_or_app. right; left; reflexivity.
    - injection E as _ E. subst b'. exfalso. apply Hb'. apply in_or_app. right; left; reflexivity.
    - injection E as _ E. apply (IH h' E). }
  subst b'. rewrite E. change (slash :: b) with ([slash] ++ b). rewrite app_assoc. rewrite skipn_app, Nat.sub_diag, skipn_all. reflexivity.
Qed.
Lemma drop_slashes_spec s : exists k, s = repeat slash k ++ drop_slashes s /\ match drop_slashes s with c :: _ => c <> slash | [] => True end.
Proof.
  induction s as [|c s (k&E&H)]; [exists O; split; [reflexivity|exact I]|]. cbn [drop_slashes]. destruct (N.eqb_spec c slash) as [->|n]; [exists (S k); cbn [repeat app]; split; [f_equal; exact E|exact H]|exists O; split; [reflexivity|exact n]].
Qed.
Lemma rev_repeat {X} (x : X) k : rev (repeat x k) = repeat x k.
Proof. induction k as [|k IH]; [reflexivity|]. cbn [repeat rev]. rewrite IH. clear. induction k as [|k IH]; [reflexivity|]. cbn [repeat app]. f_equal. exact IH. Qed.
Lemma filter_solid_slashes k s : filter solid (names (s ++ repeat slash k)) = filter solid (names s).
Proof.
  induction k as [|k IH]; [rewrite app_nil_r; reflexivity|]. replace (s ++ repeat slash (S k)) with ((s ++ repeat slash k) ++ slash :: []).
  - unfold names. rewrite split_on_sep, filter_app. cbn [split_on filter]. rewrite app_nil_r. exact IH.
  - rewrite <- app_assoc. f_equal. clear. induction k as [|k IH]; [reflexivity|]. cbn [repeat app]. f_equal. exact IH.
Qed.
Lemma forallb_slashes s : forallb (N.eqb slash) s = true -> s = repeat slash (length s).
Proof. induction s as [|c s IH]; intro H; [reflexivity|]. cbn [forallb] in H. apply andb_true_iff in H as [H1 H2]. apply N.eqb_eq in H1. subst c. cbn [length repeat]. f_equal. apply IH, H2. Qed.
(** A path with a slash: its directory part, and the names. *)
Lemma dirname_names p : In slash p -> exists l, names p = l ++ [basename p] /\ filter solid l = pnames (dirname p) /\ is_abs (dirname p) = is_abs p /\ dirname p <> [].
Proof.
  intro H. destruct (upto_split p H) as (h&b&E&Hb&U). exists (names h). subst p. rewrite (basename_split h b Hb). split; [unfold names; rewrite split_on_sep, (split_on_none slash b Hb); reflexivity|].
  unfold dirname. rewrite U. destruct (forallb (N.eqb slash) (h ++ [slash])) eqn:A.
  - split; [|split; [|destruct h; discriminate]].
    + change (pnames (h ++ [slash])) with (filter solid (names (h ++ [slash]))). rewrite <- (filter_solid_slashes 1 h). reflexivity.
    + destruct h as [|x h]; reflexivity.
  - set (q := rev (drop_slashes (rev (h ++ [slash])))). destruct (drop_slashes_spec (rev (h ++ [slash]))) as (k&Ek&Hk).
    assert (Eq : h ++ [slash] = q ++ repeat slash k). { apply (f_equal (@rev _)) in Ek. rewrite rev_involutive, rev_app_distr, rev_repeat in Ek. exact Ek. }
    assert (Hq : q <> []). { intro X. rewrite X in Eq. cbn [app] in Eq. rewrite Eq in A. clear - A. assert (forallb (N.eqb slash) (repeat slash k) = true); [|congruence]. induction k as [|k IH]; [reflexivity|]. cbn [repeat forallb]. rewrite N.eqb_refl. apply IH. clear - A. cbn [repeat forallb] in A. rewrite N.eqb_refl in A. exact A. }
    split; [|split; [|exact Hq]].
    + change (pnames q) with (filter solid (names q)). rewrite <- (filter_solid_slashes k q), <- Eq. symmetry. apply (filter_solid_slashes 1 h).
    + destruct q as [|x q]; [congruence|]. cbn [app] in Eq. destruct h as [|y h]; [cbn [app] in *; injection Eq as -> _; reflexivity|]. cbn [app] in *. injection Eq as -> _. reflexivity.
Qed.
Lemma dirname_none p : ~ In slash p -> dirname p = [].
Proof. intro H. unfold dirname. rewrite (upto_none p H). reflexivity. Qed.

(** ** Paths fit for downloads *)
(** The directory part does not end in '/.'. *)
Definition fit_path (p : str) : Prop := forall a, dirname p <> a ++ u "/.".
Lemma dirname_end p : forallb (N.eqb slash) (dirname p) = true \/ (exists a c, dirname p = a ++ [c] /\ c <> slash) .
Proof.
  unfold dirname. destruct (forallb (N.eqb slash) (upto_last_slash p)) eqn:A; [left; exact A|]. right.
  destruct (drop_slashes_spec (rev (upto_last_slash p))) as (k&E&H). destruct (drop_slashes (rev (upto_last_slash p))) as [|c s] eqn:D.
  - exfalso. rewrite app_nil_r in E. apply (f_equal (@rev _)) in E. rewrite rev_involutive, rev_repeat in E. rewrite E in A. clear - A. assert (forallb (N.eqb slash) (repeat slash k) = true); [|congruence]. induction k as [|k IH]; [reflexivity|]. cbn [repeat forallb]. rewrite N.eqb_refl. apply IH. cbn [repeat forallb] in A. rewrite N.eqb_refl in A. exact A.
  - exists (rev s), c. split; [reflexivity|exact H].
Qed.
Lemma basename_none p : ~ In slash p -> basename p = p.
Proof. intro H. unfold basename. rewrite (upto_none p H). reflexivity. Qed.
Lemma dirname_slashes s : forallb (N.eqb slash) s = true -> dirname s = s /\ basename s = [].
Proof.
  intro H. destruct s as [|c s]; [split; reflexivity|]. pose proof (forallb_slashes _ H) as E.
  assert (U : upto_last_slash (c :: s) = c :: s).
  { clear - H. revert H. generalize (c :: s). intro l. induction l as [|x l IH]; [reflexivity|]. intro H. cbn [forallb] in H. apply andb_true_iff in H as [H1 H2]. cbn [upto_last_slash existsb]. rewrite H1. cbn [orb]. rewrite IH by exact H2. reflexivity. }
  split; [unfold dirname; rewrite U, H; reflexivity|]. unfold basename. rewrite U, skipn_all. reflexivity.
Qed.
Lemma fit_last_part p : fit_path p -> dirname p <> dot -> last_part (dirname p) <> dot.
Proof.
  intros F Hd. unfold last_part. destruct (dirname_end p) as [A|(a&c&E&Hc)].
  - destruct (dirname_slashes _ A) as (E1&E2). rewrite E2, E1, E2. discriminate.
  - destruct (has_slash_dec (dirname p)) as [Hs|Hs].
    + destruct (upto_split _ Hs) as (h&b&E1&Hb&_). rewrite E1, (basename_split h b Hb). destruct b as [|x b].
      * exfalso. rewrite E in E1. apply app_inj_tail in E1 as [_ E1]. congruence.
      * intro X. apply (F h). rewrite E1, X. reflexivity.
    + rewrite (basename_none _ Hs). destruct (dirname p) as [|x d] eqn:Ed; [destruct a; discriminate E|]. exact Hd.
Qed.

(** ** Reading what is there *)
Inductive thinned : list str -> list str -> Prop :=
| th_nil : thinned [] []
| th_keep c l l' : thinned l l' -> thinned (c :: l) (c :: l')
| th_drop c l l' : solid c = false -> thinned l l' -> thinned (c :: l) l'.
Lemma thin_refl l : thinned l l. Proof. induction l; constructor; assumption. Qed.
Lemma thin_filter l : thinned l (filter solid l).
Proof. induction l as [|c l IH]; [constructor|]. cbn [filter]. destruct (solid c) eqn:E; constructor; auto. Qed.
Lemma thin_app l1 l2 r1 r2 : thinned l1 l2 -> thinned r1 r2 -> thinned (l1 ++ r1) (l2 ++ r2).
Proof. intros H1 H2. induction H1; cbn [app]; [exact H2|constructor; assumption|constructor; assumption]. Qed.
Lemma walk_thin t : forall n cur l1 l2 p, thinned l1 l2 -> walk n t true cur l1 = Ok p -> walk n t true cur l2 = Ok p.
Proof.
  induction n as [n IHn] using (well_founded_induction Wf_nat.lt_wf). intros cur l1 l2 p T. revert cur. induction T as [|c l1 l2 T IH|c l1 l2 Hc T IH]; intros cur H; [exact H| |].
  - rewrite walk_cons in H |- *. destruct (str_eqb c [] || str_eqb c dot); [apply IH, H|]. destruct (str_eqb c dotdot); [apply IH, H|]. destruct (at_place t (cur ++ [c])) as [[|b|g]|].
    + apply IH, H.
    + destruct l1; [|discriminate H]. inversion T; subst. exact H.
    + assert (X : forall l : list str, match l with [] => negb true | _ => false end = false) by (intros []; reflexivity). rewrite X in *. destruct n as [|k]; [discriminate H|]. refine (IHn k ltac:(lia) _ _ _ _ _ H). apply thin_app; [apply thin_refl|exact T].
    + destruct l1; [|discriminate H]. inversion T; subst. exact H.
  - apply IH. rewrite walk_cons in H. unfold solid in Hc. apply negb_false_iff in Hc. rewrite Hc in H. exact H.
Qed.
Lemma resolve_presolve cwd t p q : resolve cwd t true p = Ok q -> presolve cwd t true (is_abs p) (pnames p) = Ok q.
Proof. unfold resolve, presolve. destruct p as [|c p]; [discriminate|]. intro H. apply (walk_thin t _ _ _ _ _ (thin_filter _)) in H. exact H. Qed.
Lemma resolve_kept cwd t t' f p q : tree_kept t t' -> resolve cwd t f p = Ok q -> at_place t q <> None -> resolve cwd t' f p = Ok q.
Proof. intros K. unfold resolve. destruct p; [discriminate|]. apply walk_kept, K. Qed.
Lemma resolve_kindred cwd t t' f p q : kindred t t' -> resolve cwd t f p = Ok q -> at_place t q <> None -> resolve cwd t' f p = Ok q.
Proof. intros K. unfold resolve. destruct p; [discriminate|]. apply walk_kindred, K. Qed.
Lemma exists_resolve cwd t p : exists_at cwd t p = true <-> exists q, resolve cwd t true p = Ok q /\ at_place t q <> None.
Proof.
  unfold exists_at, looks_up. destruct (resolve cwd t true p) as [q|e]; [|split; [discriminate|intros (q&E&_); discriminate E]].
  destruct (at_place t q) eqn:E; split; try discriminate; intro H; [exists q; split; [reflexivity|congruence]|reflexivity|destruct H as (q'&E'&H); injection E' as <-; congruence].
Qed.
Lemma exists_kept cwd t t' p : tree_kept t t' -> exists_at cwd t p = true -> exists_at cwd t' p = true.
Proof. intros K H. apply exists_resolve in H as (q&E&H). apply exists_resolve. exists q. split; [apply (resolve_kept cwd t t' _ _ _ K E H)|]. rewrite (K q H). exact H. Qed.

(** Converted files, as in C59_converted, without the directory of the results. *)
Lemma convert_files_ok cwd sha1 fmt files out desc t t' : convert_files_to_abif cwd sha1 fmt files out desc t = (Ok tt, t') ->
  exists blobs text bytes p, Forall2 (fun f b => read_text cwd t f = Ok b) files blobs /\
    ConvertModel.convert_text_to_abif sha1 fmt blobs false false (match desc with Some (c :: d) => [(u "description", c :: d)] | _ => [] end) = Ok text /\
    presolve cwd t' true (is_abs out) (pnames out) = Ok p /\ at_place t' p = Some (NFile bytes) /\ utf8_encode text = Ok bytes /\
    (forall q, q <> p -> t' q = t q \/ (t q = None /\ t' q = Some NDir)) /\ (forall n, at_place t p = Some n -> exists b, n = NFile b).
Proof.
  unfold convert_files_to_abif. cbv zeta. unfold abind, lift. intro H. destruct (read_all cwd files t) as [blobs|e] eqn:Eb; [|discriminate H].
  match type of H with context [ConvertModel.convert_text_to_abif ?a ?b ?c ?d ?e ?f] => destruct (ConvertModel.convert_text_to_abif a b c d e f) as [text|e9] eqn:Et end; [|discriminate H].
  pose proof (path_mkdirs_more cwd (is_abs out) (match rev (pnames out) with [] => [] | _ :: r => r end) t) as Hm. fold (mkdir_parent cwd out) in Hm.
  destruct (mkdir_parent cwd out t) as [[[]|e] t1]; [|discriminate H]. cbn [snd] in Hm. pose proof H as Hw. apply write_text_ok in H as (bytes&p&E1&E2&E3&E4).
  exists blobs, text, bytes, p. split; [apply read_all_ok, Eb|]. split; [exact Et|]. split; [exact E1|]. split; [exact E2|]. split; [exact E3|]. split; [intros q Hq; rewrite (E4 q Hq); apply Hm|].
  intros n Hn. assert (Hn1 : at_place t1 p = Some n) by (rewrite (more_kept _ _ Hm); congruence). unfold write_text in Hw. destruct (presolve cwd t1 true (is_abs out) (pnames out)) as [p1|e] eqn:Ep; [|discriminate Hw].
  assert (p1 = p). { assert (Hn2 : at_place t1 p1 = None \/ exists b', at_place t1 p1 = Some (NFile b')) by (destruct (at_place t1 p1) as [[|b'|g]|]; try discriminate Hw; [right; eexists; reflexivity|left; reflexivity]).
    assert (Hx : exists b, t' = put p1 (Some (NFile b)) t1). { destruct Hn2 as [X|(b'&X)]; rewrite X in Hw; destruct (utf8_encode text) as [bb|e]; try discriminate Hw; injection Hw as <-; eexists; reflexivity. }
    destruct Hx as (b&->). unfold presolve in Ep, E1. rewrite (walk_put_file p1 b t1 Hn2 _ _ _ Ep) in E1. injection E1 as <-. reflexivity. }
  subst p1. rewrite Hn1 in Hw. destruct n as [|b|g]; try discriminate Hw. exists b. reflexivity.
Qed.
