(** * PyFacts: lemmas about the Python builtins of PyBase *)

From Verif Require Import PyBase.
From Coq Require Export Permutation Sorting.Sorted Lia ZifyBool ZifyNat ZifyN.

(** ** result *)

Lemma ok_inj {A} (x y : A) : Ok x = Ok y -> x = y.
Proof. congruence. Qed.
Lemma some_inj {A} (x y : A) : Some x = Some y -> x = y.
Proof. congruence. Qed.

Lemma bind_ok {A B} (x : result A) (f : A -> result B) b :
  bind x f = Ok b -> exists a, x = Ok a /\ f a = Ok b.
Proof. destruct x; simpl; [eauto|discriminate]. Qed.

Lemma foldM_app {S A} (f : S -> A -> result S) l1 l2 s :
  foldM f (l1 ++ l2) s = bind (foldM f l1 s) (foldM f l2).
Proof.
  revert s; induction l1 as [|x r IH]; intro s; simpl; [reflexivity|].
  destruct (f s x); simpl; auto.
Qed.

Lemma foldM_ok {S A} (f : S -> A -> result S) (g : S -> A -> S) (P : S -> Prop) l s :
  (forall s x, P s -> In x l -> f s x = Ok (g s x) /\ P (g s x)) -> P s ->
  foldM f l s = Ok (fold_left g l s) /\ P (fold_left g l s).
Proof.
  revert s; induction l as [|x r IH]; intros s H HP; simpl; [auto|].
  destruct (H s x HP (or_introl eq_refl)) as [E HP']. rewrite E; simpl.
  apply IH; auto. intros s' y Hs Hy; apply H; auto. right; exact Hy.
Qed.

Lemma foldM_ext {S A} (f g : S -> A -> result S) l s :
  (forall s x, In x l -> f s x = g s x) -> foldM f l s = foldM g l s.
Proof.
  revert s; induction l as [|x r IH]; intros s H; simpl; [reflexivity|].
  rewrite (H s x (or_introl eq_refl)). destruct (g s x); simpl; auto.
  apply IH; intros; apply H; right; assumption.
Qed.

Lemma foldM_invariant {S A} (f : S -> A -> result S) (P : S -> Prop) l s s' :
  (forall s x s', P s -> In x l -> f s x = Ok s' -> P s') -> P s -> foldM f l s = Ok s' -> P s'.
Proof.
  revert s; induction l as [|x r IH]; intros s H HP E; simpl in E.
  - inversion E; subst; exact HP.
  - destruct (f s x) as [s1|] eqn:Ex; simpl in E; [|discriminate].
    apply (IH s1); auto.
    + intros s2 y s3 H2 Hy; apply H; auto. right; exact Hy.
    + apply (H s x s1); auto. left; reflexivity.
Qed.

Lemma mapM_ok {A B} (f : A -> result B) (g : A -> B) l :
  (forall x, In x l -> f x = Ok (g x)) -> mapM f l = Ok (map g l).
Proof.
  induction l as [|x r IH]; intro H; simpl; [reflexivity|].
  rewrite (H x (or_introl eq_refl)); simpl. rewrite IH; [reflexivity|].
  intros; apply H; right; assumption.
Qed.

Lemma mapM_inv {A B} (f : A -> result B) l ys :
  mapM f l = Ok ys -> Forall2 (fun x y => f x = Ok y) l ys.
Proof.
  revert ys; induction l as [|x r IH]; intros ys H; simpl in H.
  - inversion H; constructor.
  - apply bind_ok in H as [y [Hy H]]. apply bind_ok in H as [ys' [Hys H]].
    inversion H; subst. constructor; auto.
Qed.

(** ** strings *)

Lemma str_eqb_eq a b : str_eqb a b = true <-> a = b.
Proof.
  revert b; induction a as [|x a IH]; destruct b as [|y b]; simpl; split; intro H;
    try discriminate; try reflexivity.
  - apply andb_prop in H as [H1 H2]. apply N.eqb_eq in H1. apply IH in H2. congruence.
  - inversion H; subst. rewrite N.eqb_refl. apply IH. reflexivity.
Qed.

Lemma str_eqb_refl a : str_eqb a a = true.
Proof. apply str_eqb_eq; reflexivity. Qed.

Lemma str_eqb_neq a b : str_eqb a b = false <-> a <> b.
Proof.
  split; intro H.
  - intro E; subst; rewrite str_eqb_refl in H; discriminate.
  - destruct (str_eqb a b) eqn:E; [|reflexivity]. apply str_eqb_eq in E; contradiction.
Qed.

Lemma str_eqb_sym a b : str_eqb a b = str_eqb b a.
Proof.
  destruct (str_eqb a b) eqn:E.
  - apply str_eqb_eq in E; subst. symmetry; apply str_eqb_refl.
  - apply str_eqb_neq in E. symmetry; apply str_eqb_neq; congruence.
Qed.

Lemma str_eq_dec (a b : str) : {a = b} + {a <> b}.
Proof. destruct (str_eqb a b) eqn:E; [left; apply str_eqb_eq|right; apply str_eqb_neq]; exact E. Qed.

Lemma str_eqb_spec a b : reflect (a = b) (str_eqb a b).
Proof. apply iff_reflect. symmetry; apply str_eqb_eq. Qed.

Lemma memb_In x l : memb x l = true <-> In x l.
Proof.
  induction l as [|y r IH]; simpl; [split; [discriminate|tauto]|].
  rewrite orb_true_iff, str_eqb_eq, IH. split; intros [H|H]; auto.
Qed.

Lemma memb_nIn x l : memb x l = false <-> ~ In x l.
Proof. rewrite <- memb_In. destruct (memb x l); split; intro H; congruence. Qed.

(** ** dictionaries *)

Section Dict.
Context {V : Type}.
Implicit Types (d : dict V) (k : str) (v : V).

Lemma dget_In k v d : dget k d = Some v -> In (k, v) d.
Proof.
  induction d as [|[k' v'] r IH]; simpl; [discriminate|].
  destruct (str_eqb_spec k k'); intro H; [inversion H; subst; auto|auto].
Qed.

Lemma dget_In_nodup k v d : NoDup (dkeys d) -> In (k, v) d -> dget k d = Some v.
Proof.
  induction d as [|[k' v'] r IH]; simpl; [tauto|]. intros Hn [H|H].
  - inversion H; subst. rewrite str_eqb_refl; reflexivity.
  - inversion Hn as [|? ? Hk Hr]; subst. destruct (str_eqb_spec k k') as [->|]; [|auto].
    exfalso; apply Hk. change k' with (fst (k', v)). apply in_map; exact H.
Qed.

Lemma dget_None k d : dget k d = None <-> ~ In k (dkeys d).
Proof.
  induction d as [|[k' v'] r IH]; simpl; [tauto|].
  destruct (str_eqb_spec k k') as [->|n]; split; intro H.
  - discriminate.
  - exfalso; auto.
  - intros [E|E]; [congruence|]. apply IH in H; contradiction.
  - apply IH; tauto.
Qed.

Lemma dget_Some_In k d : (exists v, dget k d = Some v) <-> In k (dkeys d).
Proof.
  split.
  - intros [v H]. apply dget_In in H. change k with (fst (k, v)). apply in_map; exact H.
  - intro H. destruct (dget k d) eqn:E; [eauto|]. apply dget_None in E; contradiction.
Qed.

Lemma dmem_In k d : dmem k d = true <-> In k (dkeys d).
Proof.
  unfold dmem. rewrite <- dget_Some_In. destruct (dget k d); split; intro H; eauto; try discriminate.
  destruct H; discriminate.
Qed.

Lemma dget_dset_same k v d : dget k (dset k v d) = Some v.
Proof.
  induction d as [|[k' v'] r IH]; simpl; [rewrite str_eqb_refl; reflexivity|].
  destruct (str_eqb_spec k k') as [->|n]; simpl.
  - rewrite str_eqb_refl; reflexivity.
  - rewrite (proj2 (str_eqb_neq _ _) n); exact IH.
Qed.

Lemma dget_dset_other k k' v d : k <> k' -> dget k (dset k' v d) = dget k d.
Proof.
  intro n. induction d as [|[k1 v1] r IH]; simpl.
  - rewrite (proj2 (str_eqb_neq _ _) n); reflexivity.
  - destruct (str_eqb_spec k' k1) as [->|n1]; simpl.
    + rewrite (proj2 (str_eqb_neq _ _) n); reflexivity.
    + destruct (str_eqb_spec k k1); [reflexivity|exact IH].
Qed.

Lemma dget_dset k k' v d : dget k (dset k' v d) = if str_eqb k k' then Some v else dget k d.
Proof.
  destruct (str_eqb_spec k k') as [->|n]; [apply dget_dset_same|apply dget_dset_other; exact n].
Qed.

Lemma dkeys_dset_In k v d : In k (dkeys d) -> dkeys (dset k v d) = dkeys d.
Proof.
  induction d as [|[k' v'] r IH]; simpl; [tauto|]. intro H.
  destruct (str_eqb_spec k k') as [->|n]; simpl; [reflexivity|].
  destruct H as [H|H]; [congruence|]. f_equal; auto.
Qed.

Lemma dkeys_dset_nIn k v d : ~ In k (dkeys d) -> dset k v d = d ++ [(k, v)].
Proof.
  induction d as [|[k' v'] r IH]; simpl; [reflexivity|]. intro H.
  destruct (str_eqb_spec k k') as [->|n]; simpl; [exfalso; auto|]. rewrite IH; auto.
Qed.

Lemma dkeys_dset k v d :
  dkeys (dset k v d) = if memb k (dkeys d) then dkeys d else dkeys d ++ [k].
Proof.
  destruct (memb k (dkeys d)) eqn:E.
  - apply memb_In in E. apply dkeys_dset_In; exact E.
  - apply memb_nIn in E. rewrite dkeys_dset_nIn by exact E. unfold dkeys.
    rewrite map_app; reflexivity.
Qed.

Lemma In_dkeys_dset k k' v d : In k (dkeys (dset k' v d)) <-> k = k' \/ In k (dkeys d).
Proof.
  rewrite dkeys_dset. destruct (memb k' (dkeys d)) eqn:E.
  - apply memb_In in E. split; [auto|]. intros [->|H]; auto.
  - rewrite in_app_iff; simpl. split; [intros [H|[H|[]]]; auto|intros [H|H]; auto].
Qed.

Lemma NoDup_snoc {A} (x : A) l : NoDup l -> ~ In x l -> NoDup (l ++ [x]).
Proof.
  intros Hl Hx. apply (Permutation_NoDup (l := x :: l)); [|constructor; auto].
  apply Permutation_cons_append.
Qed.

Lemma NoDup_dset k v d : NoDup (dkeys d) -> NoDup (dkeys (dset k v d)).
Proof.
  intro H. rewrite dkeys_dset. destruct (memb k (dkeys d)) eqn:E; [exact H|].
  apply memb_nIn in E. apply NoDup_snoc; auto.
Qed.

Lemma dkeys_ddel k d : NoDup (dkeys d) -> dkeys (ddel k d) = filter (fun x => negb (str_eqb k x)) (dkeys d).
Proof.
  induction d as [|[k' v'] r IH]; simpl; [reflexivity|]. intro Hn. inversion Hn as [|? ? Hk Hr]; subst.
  destruct (str_eqb_spec k k') as [->|n]; simpl.
  - clear IH Hn Hr. induction (dkeys r) as [|y l IHl]; simpl; [reflexivity|].
    destruct (str_eqb_spec k' y) as [->|]; simpl; [exfalso; apply Hk; left; reflexivity|].
    rewrite <- IHl; [reflexivity|]. intro; apply Hk; right; assumption.
  - rewrite IH by exact Hr; reflexivity.
Qed.

Lemma dget_ddel k k' d : NoDup (dkeys d) -> dget k (ddel k' d) = if str_eqb k k' then None else dget k d.
Proof.
  induction d as [|[k1 v1] r IH]; simpl; intro Hn.
  - destruct (str_eqb k k'); reflexivity.
  - inversion Hn as [|? ? Hk Hr]; subst. destruct (str_eqb_spec k' k1) as [->|n]; simpl.
    + destruct (str_eqb_spec k k1) as [->|]; [|reflexivity]. apply dget_None; exact Hk.
    + destruct (str_eqb_spec k k1) as [->|n1].
      * destruct (str_eqb_spec k1 k') as [->|]; [congruence|reflexivity].
      * apply IH; exact Hr.
Qed.

Lemma ddel_nIn k d : ~ In k (dkeys d) -> ddel k d = d.
Proof.
  induction d as [|[k' v'] r IH]; simpl; [reflexivity|]. intro H.
  destruct (str_eqb_spec k k') as [->|n]; [exfalso; auto|]. rewrite IH; auto.
Qed.

Lemma ddel_filter k d : NoDup (dkeys d) -> ddel k d = filter (fun kv => negb (str_eqb k (fst kv))) d.
Proof.
  induction d as [|[k' v'] r IH]; simpl; [reflexivity|]. intro Hn. inversion Hn as [|? ? Hk Hr]; subst.
  destruct (str_eqb_spec k k') as [->|n]; simpl.
  - rewrite <- IH by exact Hr. symmetry; apply ddel_nIn; exact Hk.
  - rewrite IH by exact Hr; reflexivity.
Qed.

(** A dictionary given by its keys and a function. *)
Definition dmap (l : list str) (f : str -> V) : dict V := map (fun a => (a, f a)) l.

Lemma dkeys_dmap l f : dkeys (dmap l f) = l.
Proof. unfold dkeys, dmap. rewrite map_map. simpl. apply map_id. Qed.

Lemma dvals_dmap l f : dvals (dmap l f) = map f l.
Proof. unfold dvals, dmap. rewrite map_map. reflexivity. Qed.

Lemma dget_dmap k l f : dget k (dmap l f) = if memb k l then Some (f k) else None.
Proof.
  induction l as [|x r IH]; simpl; [reflexivity|].
  destruct (str_eqb_spec k x) as [->|n]; simpl; [reflexivity|exact IH].
Qed.

Lemma dmap_ext l f g : (forall x, In x l -> f x = g x) -> dmap l f = dmap l g.
Proof. intro H. apply map_ext_in. intros x Hx; rewrite H; auto. Qed.

Lemma dset_dmap k v l f :
  NoDup l -> In k l -> dset k v (dmap l f) = dmap l (fun x => if str_eqb k x then v else f x).
Proof.
  induction l as [|x r IH]; simpl; [tauto|]. intros Hn Hi. inversion Hn as [|? ? Hx Hr]; subst.
  destruct (str_eqb_spec k x) as [->|n].
  - f_equal. apply dmap_ext. intros y Hy. destruct (str_eqb_spec x y) as [->|]; [contradiction|reflexivity].
  - f_equal. apply IH; [exact Hr|]. destruct Hi; [congruence|assumption].
Qed.

Lemma dmap_snoc l x f : dmap (l ++ [x]) f = dmap l f ++ [(x, f x)].
Proof. unfold dmap. rewrite map_app. reflexivity. Qed.

(** Building a dict by assigning each key of a duplicate-free list once. *)
Lemma fold_dset_dmap (f : str -> V) l acc :
  NoDup (acc ++ l) -> fold_left (fun d a => dset a (f a) d) l (dmap acc f) = dmap (acc ++ l) f.
Proof.
  revert acc; induction l as [|x r IH]; intros acc Hn; simpl; [rewrite app_nil_r; reflexivity|].
  assert (Hx : ~ In x acc).
  { intro Hi. apply NoDup_remove_2 in Hn. apply Hn. apply in_or_app; auto. }
  rewrite dkeys_dset_nIn by (rewrite dkeys_dmap; exact Hx).
  rewrite <- dmap_snoc. rewrite IH; rewrite <- app_assoc; simpl; [reflexivity|exact Hn].
Qed.

Lemma dict_as_dmap d (dflt : V) : NoDup (dkeys d) ->
  d = dmap (dkeys d) (fun k => match dget k d with Some v => v | None => dflt end).
Proof.
  intro Hn. induction d as [|[k v] r IH]; simpl; [reflexivity|].
  inversion Hn as [|? ? Hk Hr]; subst. rewrite str_eqb_refl. f_equal.
  rewrite IH at 1 by exact Hr. apply dmap_ext. intros x Hx.
  destruct (str_eqb_spec x k) as [->|]; [contradiction|reflexivity].
Qed.
End Dict.

Lemma dmodE_dmap {V} k (g : V -> V) l f :
  NoDup l -> In k l ->
  dmodE k g (dmap l f) = Ok (dmap l (fun x => if str_eqb k x then g (f x) else f x)).
Proof.
  intros Hn Hi. unfold dmodE. rewrite dget_dmap, (proj2 (memb_In _ _) Hi).
  rewrite dset_dmap by assumption. f_equal. apply dmap_ext. intros x _.
  destruct (str_eqb_spec k x) as [->|]; reflexivity.
Qed.

(** ** sums *)

Open Scope Z_scope.

Lemma zsum_app l1 l2 : zsum (l1 ++ l2) = zsum l1 + zsum l2.
Proof. induction l1; simpl; lia. Qed.

Lemma zsum_perm l1 l2 : Permutation l1 l2 -> zsum l1 = zsum l2.
Proof. induction 1; simpl; lia. Qed.

Lemma zsum_map_add {A} (f g : A -> Z) l :
  zsum (map (fun x => f x + g x) l) = zsum (map f l) + zsum (map g l).
Proof. induction l; simpl; lia. Qed.

Lemma zsum_map_scale {A} (k : Z) (f : A -> Z) l :
  zsum (map (fun x => k * f x) l) = k * zsum (map f l).
Proof. induction l; simpl; lia. Qed.

Lemma zsum_map_ext {A} (f g : A -> Z) l :
  (forall x, In x l -> f x = g x) -> zsum (map f l) = zsum (map g l).
Proof. intro H. f_equal. apply map_ext_in; exact H. Qed.

Lemma zsum_map_0 {A} (f : A -> Z) l : (forall x, In x l -> f x = 0) -> zsum (map f l) = 0.
Proof.
  induction l as [|x r IH]; intro H; simpl; [reflexivity|].
  rewrite H by (left; reflexivity). rewrite IH; [reflexivity|]. intros; apply H; right; assumption.
Qed.

Lemma zsum_nonneg l : (forall x, In x l -> 0 <= x) -> 0 <= zsum l.
Proof.
  induction l as [|x r IH]; intro H; simpl; [lia|].
  pose proof (H x (or_introl eq_refl)). assert (0 <= zsum r) by (apply IH; intros; apply H; right; assumption).
  lia.
Qed.

Lemma zsum_le {A} (f g : A -> Z) l :
  (forall x, In x l -> f x <= g x) -> zsum (map f l) <= zsum (map g l).
Proof.
  induction l as [|x r IH]; intro H; simpl; [lia|].
  pose proof (H x (or_introl eq_refl)).
  assert (zsum (map f r) <= zsum (map g r)) by (apply IH; intros; apply H; right; assumption). lia.
Qed.

Lemma zsum_filter {A} (p : A -> bool) (f : A -> Z) l :
  zsum (map f (filter p l)) = zsum (map (fun x => if p x then f x else 0) l).
Proof. induction l as [|x r IH]; simpl; [reflexivity|]. destruct (p x); simpl; lia. Qed.

Lemma zsum_single (c : str) (f : str -> Z) l :
  NoDup l -> In c l -> zsum (map (fun a => if str_eqb c a then f a else 0) l) = f c.
Proof.
  induction l as [|x r IH]; simpl; [tauto|]. intros Hn Hi. inversion Hn as [|? ? Hx Hr]; subst.
  destruct (str_eqb_spec c x) as [->|n].
  - rewrite zsum_map_0; [lia|]. intros y Hy. destruct (str_eqb_spec x y) as [->|]; [contradiction|reflexivity].
  - rewrite IH; [lia|exact Hr|]. destruct Hi; [congruence|assumption].
Qed.

Lemma zsum_map_swap {A B} (f : A -> B -> Z) la lb :
  zsum (map (fun a => zsum (map (fun b => f a b) lb)) la) =
  zsum (map (fun b => zsum (map (fun a => f a b) la)) lb).
Proof.
  induction la as [|a r IH]; simpl.
  - rewrite zsum_map_0; reflexivity.
  - rewrite IH, zsum_map_add. reflexivity.
Qed.

Lemma zsum_map_const {A} (c : Z) (l : list A) : zsum (map (fun _ => c) l) = c * Z.of_nat (length l).
Proof. induction l as [|x r IH]; simpl length; simpl map; simpl zsum; [lia|]. rewrite IH. lia. Qed.

(** ** stable sort *)

Section Sort.
Context {A : Type} (leb : A -> A -> bool).

Lemma insert_by_perm x l : Permutation (insert_by leb x l) (x :: l).
Proof.
  induction l as [|y r IH]; simpl; [reflexivity|].
  destruct (leb x y); [reflexivity|]. rewrite IH. apply perm_swap.
Qed.

Lemma sort_by_perm l : Permutation (sort_by leb l) l.
Proof.
  induction l as [|x r IH]; simpl; [reflexivity|]. rewrite insert_by_perm. constructor; exact IH.
Qed.

Lemma sort_by_In x l : In x (sort_by leb l) <-> In x l.
Proof.
  split; apply Permutation_in; [|symmetry]; apply sort_by_perm.
Qed.

Lemma sort_by_length l : length (sort_by leb l) = length l.
Proof. apply Permutation_length, sort_by_perm. Qed.

Hypothesis leb_total : forall x y, leb x y = true \/ leb y x = true.
Hypothesis leb_trans : forall x y z, leb x y = true -> leb y z = true -> leb x z = true.

Lemma insert_by_sorted x l :
  StronglySorted (fun a b => leb a b = true) l -> StronglySorted (fun a b => leb a b = true) (insert_by leb x l).
Proof.
  induction l as [|y r IH]; intro H; simpl; [repeat constructor|].
  destruct (leb x y) eqn:E.
  - constructor; [exact H|]. inversion H as [|? ? Hr Hf]; subst. constructor; [exact E|].
    eapply Forall_impl; [|exact Hf]. intros z Hz; eapply leb_trans; eauto.
  - inversion H as [|? ? Hr Hf]; subst. constructor; [auto|].
    rewrite Forall_forall. intros z Hz. apply (Permutation_in _ (insert_by_perm x r)) in Hz.
    destruct Hz as [<-|Hz].
    + destruct (leb_total x y); congruence.
    + rewrite Forall_forall in Hf; auto.
Qed.

Lemma sort_by_sorted l : StronglySorted (fun a b => leb a b = true) (sort_by leb l).
Proof. induction l; simpl; [constructor|apply insert_by_sorted; assumption]. Qed.

(** Stability: elements that are pairwise [leb] keep their relative order. *)
Lemma insert_by_filter (p : A -> bool) x l :
  (forall a b, p a = true -> p b = true -> leb a b = true) ->
  filter p (insert_by leb x l) = filter p (x :: l).
Proof.
  intro Hp. induction l as [|y r IH]; simpl; [reflexivity|].
  destruct (leb x y) eqn:E; simpl; [reflexivity|]. rewrite IH. simpl.
  destruct (p x) eqn:Px, (p y) eqn:Py; auto. rewrite Hp in E by assumption; discriminate.
Qed.

Lemma sort_by_stable (p : A -> bool) l :
  (forall a b, p a = true -> p b = true -> leb a b = true) ->
  filter p (sort_by leb l) = filter p l.
Proof.
  intro Hp. induction l as [|x r IH]; simpl; [reflexivity|].
  rewrite insert_by_filter by exact Hp. simpl. rewrite IH; reflexivity.
Qed.

Lemma sort_by_id l : StronglySorted (fun a b => leb a b = true) l -> sort_by leb l = l.
Proof.
  induction 1 as [|x r Hr IH Hf]; simpl; [reflexivity|]. rewrite IH.
  destruct r as [|y r']; simpl; [reflexivity|]. inversion Hf; subst.
  destruct (leb x y); [reflexivity|congruence].
Qed.
End Sort.

Lemma sort_asc_perm {A} (k : A -> Z) l : Permutation (sort_asc k l) l.
Proof. apply sort_by_perm. Qed.
Lemma sort_desc_perm {A} (k : A -> Z) l : Permutation (sort_desc k l) l.
Proof. apply sort_by_perm. Qed.

Lemma sort_asc_sorted {A} (k : A -> Z) l : StronglySorted (fun x y => k x <= k y) (sort_asc k l).
Proof.
  assert (H : StronglySorted (fun x y => (k x <=? k y) = true) (sort_asc k l)).
  { apply sort_by_sorted; intros; lia. }
  induction H as [|x r Hr IH Hf]; constructor; auto.
  eapply Forall_impl; [|exact Hf]. intros; simpl in *; lia.
Qed.

Lemma sort_desc_sorted {A} (k : A -> Z) l : StronglySorted (fun x y => k y <= k x) (sort_desc k l).
Proof.
  assert (H : StronglySorted (fun x y => (k y <=? k x) = true) (sort_desc k l)).
  { apply sort_by_sorted; intros; lia. }
  induction H as [|x r Hr IH Hf]; constructor; auto.
  eapply Forall_impl; [|exact Hf]. intros; simpl in *; lia.
Qed.

Lemma sort_asc_stable {A} (k : A -> Z) l z :
  filter (fun x => k x =? z) (sort_asc k l) = filter (fun x => k x =? z) l.
Proof. apply sort_by_stable; intros; lia. Qed.

Lemma sort_desc_stable {A} (k : A -> Z) l z :
  filter (fun x => k x =? z) (sort_desc k l) = filter (fun x => k x =? z) l.
Proof. apply sort_by_stable; intros; lia. Qed.

Lemma insert_by_map {A B} (f : A -> B) (lebA : A -> A -> bool) (lebB : B -> B -> bool) x l :
  (forall a b, lebA a b = lebB (f a) (f b)) ->
  map f (insert_by lebA x l) = insert_by lebB (f x) (map f l).
Proof.
  intro H. induction l as [|y r IH]; simpl; [reflexivity|].
  rewrite <- H. destruct (lebA x y); simpl; [reflexivity|]. rewrite IH; reflexivity.
Qed.

Lemma sort_by_map {A B} (f : A -> B) (lebA : A -> A -> bool) (lebB : B -> B -> bool) l :
  (forall a b, lebA a b = lebB (f a) (f b)) ->
  map f (sort_by lebA l) = sort_by lebB (map f l).
Proof.
  intro H. induction l as [|x r IH]; simpl; [reflexivity|].
  rewrite (insert_by_map f lebA lebB) by exact H. rewrite IH; reflexivity.
Qed.

Lemma insert_by_ext {A} (p q : A -> A -> bool) x l :
  (forall y, In y l -> p x y = q x y) -> insert_by p x l = insert_by q x l.
Proof.
  induction l as [|y r IH]; intro H; simpl; [reflexivity|].
  rewrite (H y) by (left; reflexivity). rewrite IH; [reflexivity|]. intros; apply H; right; assumption.
Qed.

Lemma sort_by_ext {A} (p q : A -> A -> bool) l :
  (forall x y, In x l -> In y l -> p x y = q x y) -> sort_by p l = sort_by q l.
Proof.
  induction l as [|x r IH]; intro H; simpl; [reflexivity|].
  rewrite IH by (intros; apply H; right; assumption).
  apply insert_by_ext. intros y Hy. apply H; [left; reflexivity|right].
  apply (sort_by_In q); exact Hy.
Qed.

Lemma sort_asc_ext {A} (k k' : A -> Z) l :
  (forall x, In x l -> k x = k' x) -> sort_asc k l = sort_asc k' l.
Proof. intro H. apply sort_by_ext. intros x y Hx Hy. rewrite !H by assumption. reflexivity. Qed.

Lemma sort_desc_ext {A} (k k' : A -> Z) l :
  (forall x, In x l -> k x = k' x) -> sort_desc k l = sort_desc k' l.
Proof. intro H. apply sort_by_ext. intros x y Hx Hy. rewrite !H by assumption. reflexivity. Qed.

(** ** Order of strings *)
Lemma str_leb_total a : forall b, str_leb a b = true \/ str_leb b a = true.
Proof.
  induction a as [|x a IH]; intros [|y b]; cbn; auto. rewrite (N.eqb_sym y x). destruct (N.eqb_spec x y) as [->|n]; [apply IH|].
  destruct (N.ltb_spec x y), (N.ltb_spec y x); auto; lia.
Qed.
Lemma str_leb_trans a : forall b c, str_leb a b = true -> str_leb b c = true -> str_leb a c = true.
Proof.
  induction a as [|x a IH]; intros [|y b] [|z c]; cbn; auto; try discriminate.
  destruct (N.eqb_spec x y) as [->|n].
  - destruct (N.eqb_spec y z) as [->|n']; [apply IH|auto].
  - destruct (N.eqb_spec y z) as [->|n'].
    + destruct (N.eqb_spec x z); [congruence|]. auto.
    + intros H1 H2. apply N.ltb_lt in H1, H2. destruct (N.eqb_spec x z); [lia|]. apply N.ltb_lt. lia.
Qed.
Lemma str_leb_antisym a : forall b, str_leb a b = true -> str_leb b a = true -> a = b.
Proof.
  induction a as [|x a IH]; intros [|y b]; cbn; auto; try discriminate.
  rewrite (N.eqb_sym y x). destruct (N.eqb_spec x y) as [->|n].
  - intros H1 H2. f_equal. apply IH; assumption.
  - intros H1 H2. apply N.ltb_lt in H1, H2. lia.
Qed.

