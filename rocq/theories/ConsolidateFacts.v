(** * ConsolidateFacts: the JSON key identifies the preferences; what the merging loop computes. *)

From Coq Require Import Lia Permutation Sorted.
From Verif Require Import PyBase PyFacts Jabmod Spec UrlText JsonText JsonFacts WriterModel.
Local Open Scope Z_scope.

(** ** Specification *)
(** Two preference dicts are the same: the same candidates with the same entries, in whatever order. *)
Definition same_prefs (p q : dict pref) : Prop := forall c, dget c p = dget c q.

Definition rating_eqb (a b : ratingval) : bool :=
  match a, b with RInt x, RInt y => x =? y | RStr x, RStr y => str_eqb x y | _, _ => false end.
Definition opt_eqb {A} (eqb : A -> A -> bool) (a b : option A) : bool :=
  match a, b with Some x, Some y => eqb x y | None, None => true | _, _ => false end.
Definition pref_eqb (p q : pref) : bool :=
  opt_eqb Z.eqb (p_rank p) (p_rank q) && opt_eqb rating_eqb (p_rating p) (p_rating q) && opt_eqb N.eqb (p_nextdelim p) (p_nextdelim q).
(** Decides [same_prefs]. *)
Definition same_prefsb (p q : dict pref) : bool :=
  forallb (fun c => opt_eqb pref_eqb (dget c p) (dget c q)) (dkeys p ++ dkeys q).
Definition same_line (v w : voteline) : bool := same_prefsb (v_prefs v) (v_prefs w).

(** The first line of each group of lines with the same preferences. *)
Fixpoint first_of_each (ls : list voteline) : list voteline :=
  match ls with
  | [] => []
  | v :: r => v :: filter (fun w => negb (same_line v w)) (first_of_each r)
  end.

(** All texts on the line are Unicode text, and no candidate occurs twice. *)
Definition clean_line (v : voteline) : Prop :=
  NoDup (map fst (v_prefs v)) /\
  forall c p, In (c, p) (v_prefs v) -> forallb scalar c = true /\
    (forall s, p_rating p = Some (RStr s) -> forallb scalar s = true) /\
    (forall d, p_nextdelim p = Some d -> scalar d = true).

(** ** Decisions *)
Lemma rating_eqb_eq a b : rating_eqb a b = true <-> a = b.
Proof.
  destruct a as [x|x], b as [y|y]; cbn; (split; intro H); try discriminate.
  - apply Z.eqb_eq in H. congruence.
  - injection H as ->. apply Z.eqb_refl.
  - apply str_eqb_eq in H. congruence.
  - injection H as ->. apply str_eqb_refl.
Qed.
Lemma opt_eqb_eq {A} (eqb : A -> A -> bool) : (forall x y, eqb x y = true <-> x = y) -> forall a b, opt_eqb eqb a b = true <-> a = b.
Proof.
  intros H [x|] [y|]; cbn; try (split; [discriminate|discriminate]); [|split; reflexivity].
  rewrite H. split; [intros ->; reflexivity|intro E; injection E as ->; reflexivity].
Qed.
Lemma pref_eqb_eq p q : pref_eqb p q = true <-> p = q.
Proof.
  unfold pref_eqb. rewrite !andb_true_iff, (opt_eqb_eq _ Z.eqb_eq), (opt_eqb_eq _ rating_eqb_eq), (opt_eqb_eq _ N.eqb_eq).
  destruct p, q; cbn. split; [intros [[-> ->] ->]; reflexivity|intro E; injection E as -> -> ->; auto].
Qed.
Lemma same_prefsb_ok p q : same_prefsb p q = true <-> same_prefs p q.
Proof.
  unfold same_prefsb, same_prefs. rewrite forallb_forall. split.
  - intros H c. destruct (in_dec str_eq_dec c (dkeys p ++ dkeys q)) as [Hin|Hn].
    + apply (opt_eqb_eq _ pref_eqb_eq). apply H, Hin.
    + rewrite (proj2 (dget_None c p)), (proj2 (dget_None c q)); [reflexivity| |]; intro Hc; apply Hn; apply in_or_app; auto.
  - intros H c _. apply (opt_eqb_eq _ pref_eqb_eq). apply H.
Qed.

(** ** Sorting by key *)
Lemma sorted_unique {A} (leb : A -> A -> bool) l : forall l', Permutation l l' ->
  (forall x y, In x l -> In y l -> leb x y = true -> leb y x = true -> x = y) ->
  StronglySorted (fun x y => leb x y = true) l -> StronglySorted (fun x y => leb x y = true) l' -> l = l'.
Proof.
  induction l as [|x l IH]; intros l' P Ha S S'.
  - apply Permutation_nil in P. auto.
  - destruct l' as [|y l']; [apply Permutation_sym, Permutation_nil in P; discriminate|].
    inversion S as [|? ? S1 F1]; subst. inversion S' as [|? ? S2 F2]; subst. rewrite Forall_forall in F1, F2.
    assert (E : x = y).
    { assert (Hx : In x (y :: l')) by (apply (Permutation_in _ P); left; reflexivity).
      assert (Hy : In y (x :: l)) by (apply (Permutation_in _ (Permutation_sym P)); left; reflexivity).
      destruct Hx as [->|Hx]; [reflexivity|]. destruct Hy as [->|Hy]; [reflexivity|].
      apply Ha; [left; reflexivity|right; exact Hy|apply F1, Hy|apply F2, Hx]. }
    subst y. apply Permutation_cons_inv in P. f_equal. apply IH; auto. intros a b Ha' Hb'. apply Ha; right; assumption.
Qed.

Lemma same_prefs_perm p q : NoDup (dkeys p) -> NoDup (dkeys q) -> same_prefs p q -> Permutation p q.
Proof.
  intros Hp Hq H. apply NoDup_Permutation.
  - apply (NoDup_map_inv fst). exact Hp.
  - apply (NoDup_map_inv fst). exact Hq.
  - intros [c x]. split; intro Hin.
    + apply dget_In. rewrite <- H. apply dget_In_nodup; assumption.
    + apply dget_In. rewrite H. apply dget_In_nodup; assumption.
Qed.
Lemma perm_same_prefs p q : NoDup (dkeys p) -> Permutation p q -> same_prefs p q.
Proof.
  intros Hp P c. assert (Hq : NoDup (dkeys q)) by (apply (Permutation_NoDup (Permutation_map fst P)); exact Hp).
  destruct (dget c p) as [x|] eqn:E.
  - symmetry. apply dget_In_nodup; [exact Hq|]. apply (Permutation_in _ P). apply dget_In, E.
  - symmetry. apply dget_None. apply dget_None in E. intro Hin. apply E. exact (Permutation_in _ (Permutation_sym (Permutation_map fst P)) Hin).
Qed.
Lemma key_unique (l : dict pref) x y : NoDup (dkeys l) -> In x l -> In y l -> fst x = fst y -> x = y.
Proof.
  intros Hn Hx Hy E. destruct x as [k a], y as [k' b]. cbn in E. subst k'.
  pose proof (dget_In_nodup _ _ _ Hn Hx). pose proof (dget_In_nodup _ _ _ Hn Hy). congruence.
Qed.

Definition by_key (a b : str * pref) : bool := str_leb (fst a) (fst b).
Lemma sort_same p q : NoDup (dkeys p) -> Permutation p q -> sort_by by_key p = sort_by by_key q.
Proof.
  intros Hn P.
  assert (T : forall a b, by_key a b = true \/ by_key b a = true) by (intros; apply str_leb_total).
  assert (Tr : forall a b c, by_key a b = true -> by_key b c = true -> by_key a c = true) by (intros a b c; apply str_leb_trans).
  apply (sorted_unique by_key).
  - eapply perm_trans; [apply sort_by_perm|]. eapply perm_trans; [exact P|]. apply Permutation_sym, sort_by_perm.
  - intros x y Hx Hy H1 H2. apply sort_by_In in Hx, Hy. apply (key_unique p); auto. apply str_leb_antisym; assumption.
  - apply sort_by_sorted; assumption.
  - apply sort_by_sorted; assumption.
Qed.

(** ** The key *)
Lemma pref_json_inj p q : pref_json p = pref_json q -> p = q.
Proof.
  destruct p as [r1 t1 d1], q as [r2 t2 d2]. unfold pref_json. cbn [p_rank p_rating p_nextdelim]. intro E.
  apply (f_equal (fun j => match j with JObj l => l | _ => [] end)) in E. cbv beta iota in E.
  destruct d1 as [d1|], d2 as [d2|], r1 as [r1|], r2 as [r2|], t1 as [[x1|x1]|], t2 as [[x2|x2]|]; cbn [app] in E; try discriminate E;
    try (injection E; intros; subst); reflexivity.
Qed.
Lemma pref_json_ok p : (forall s, p_rating p = Some (RStr s) -> forallb scalar s = true) ->
  (forall d, p_nextdelim p = Some d -> scalar d = true) -> json_text_ok (pref_json p) = true.
Proof.
  intros H1 H2. destruct p as [r t d]. cbn [p_rating p_nextdelim] in *. unfold pref_json. cbn [p_rank p_rating p_nextdelim].
  cbn [json_text_ok]. rewrite !forallb_app.
  destruct d as [d|]; cbn [forallb fst snd json_text_ok]; [rewrite (H2 d eq_refl)|];
  destruct r as [r|]; destruct t as [[x|x]|]; cbn [forallb fst snd json_text_ok]; rewrite ?(H1 _ eq_refl); reflexivity.
Qed.

Lemma key_same v w : clean_line v -> clean_line w -> str_eqb (prefs_key (v_prefs v)) (prefs_key (v_prefs w)) = same_line v w.
Proof.
  intros [Nv Cv] [Nw Cw]. unfold same_line.
  assert (OK : forall x, clean_line x -> json_text_ok (JObj (map (fun kv => (fst kv, pref_json (snd kv))) (sort_by by_key (v_prefs x)))) = true).
  { intros x [_ Cx]. cbn [json_text_ok]. apply forallb_forall. intros [k j] Hin. apply in_map_iff in Hin as ([c p]&E&Hin).
    apply sort_by_In in Hin. cbn [fst snd] in E. injection E as <- <-. destruct (Cx c p Hin) as (H1&H2&H3). cbn [fst snd].
    rewrite H1. apply pref_json_ok; assumption. }
  destruct (same_prefsb (v_prefs v) (v_prefs w)) eqn:Es.
  - apply same_prefsb_ok in Es. apply str_eqb_eq. unfold prefs_key. fold by_key.
    change (fun a b : str * pref => str_leb (fst a) (fst b)) with by_key.
    rewrite (sort_same _ (v_prefs w) Nv); [reflexivity|]. apply same_prefs_perm; assumption.
  - destruct (str_eqb (prefs_key (v_prefs v)) (prefs_key (v_prefs w))) eqn:Ek; [|reflexivity]. exfalso.
    apply str_eqb_eq in Ek. unfold prefs_key in Ek.
    apply json_dumps_inj in Ek; [|apply (OK v); split; assumption|apply (OK w); split; assumption].
    apply (f_equal (fun j => match j with JObj l => l | _ => [] end)) in Ek. cbv beta iota in Ek. assert (P : Permutation (v_prefs v) (v_prefs w)).
    { eapply perm_trans; [apply Permutation_sym, (sort_by_perm by_key)|].
      assert (E2 : sort_by by_key (v_prefs v) = sort_by by_key (v_prefs w)).
      { revert Ek. change (fun a b : str * pref => str_leb (fst a) (fst b)) with by_key. generalize (sort_by by_key (v_prefs v)) as a, (sort_by by_key (v_prefs w)) as b.
        induction a as [|[k p] a IH]; intros [|[k' p'] b] E; cbn [map fst snd] in E; try discriminate; [reflexivity|].
        pose proof (f_equal (@tl _) E) as E2. pose proof (f_equal (@hd _ ([], JNull)) E) as E1. cbn [tl hd] in E1, E2.
        pose proof (f_equal fst E1) as E3. pose proof (f_equal snd E1) as E4. cbn [fst snd] in E3, E4. subst k'. apply pref_json_inj in E4. subst p'.
        f_equal. apply IH; exact E2. }
      rewrite E2. apply sort_by_perm. }
    apply (perm_same_prefs _ _ Nv) in P. apply same_prefsb_ok in P. congruence.
Qed.

(** ** The loop *)
Section Loop.
Variable key : voteline -> str.
Definition eqk (v w : voteline) : bool := str_eqb (key v) (key w).
Fixpoint firsts (ls : list voteline) : list voteline :=
  match ls with [] => [] | v :: r => v :: filter (fun w => negb (eqk v w)) (firsts r) end.
Lemma firsts_snoc ls v : firsts (ls ++ [v]) = firsts ls ++ (if existsb (fun x => eqk x v) ls then [] else [v]).
Proof.
  induction ls as [|x ls IH]; [reflexivity|]. cbn [app firsts existsb]. rewrite IH, filter_app. cbn [app]. f_equal. f_equal.
  destruct (existsb (fun y => eqk y v) ls); cbn [filter]; [rewrite orb_true_r; reflexivity|].
  rewrite orb_false_r. destruct (eqk x v); reflexivity.
Qed.
Lemma firsts_incl ls : incl (firsts ls) ls.
Proof.
  induction ls as [|x ls IH]; [intros ? []|]. cbn [firsts]. intros y [<-|Hy]; [left; reflexivity|]. apply filter_In in Hy as [Hy _]. right. apply IH, Hy.
Qed.
Lemma firsts_keys ls : NoDup (map key (firsts ls)).
Proof.
  induction ls as [|x ls IH]; [constructor|]. cbn [firsts map]. constructor.
  - intro Hin. apply in_map_iff in Hin as (y&E&Hy). apply filter_In in Hy as [_ Hy]. unfold eqk in Hy. rewrite E, str_eqb_refl in Hy. discriminate.
  - clear - IH. induction (firsts ls) as [|y l IHl]; [constructor|]. cbn [filter]. inversion IH; subst.
    destruct (negb (eqk x y)); [|apply IHl; assumption]. cbn [map]. constructor; [|apply IHl; assumption].
    intro Hin. apply H1. apply in_map_iff in Hin as (z&E&Hz). apply filter_In in Hz as [Hz _]. rewrite <- E. apply in_map, Hz.
Qed.
Lemma firsts_has ls v : In v ls -> exists w, In w (firsts ls) /\ eqk w v = true.
Proof.
  induction ls as [|x ls IH]; intros []; cbn [firsts].
  - subst. exists v. split; [left; reflexivity|]. apply str_eqb_refl.
  - destruct (IH H) as (w&Hw&E). destruct (eqk x w) eqn:Ex.
    + exists x. split; [left; reflexivity|]. unfold eqk in *. apply str_eqb_eq in E, Ex. apply str_eqb_eq. congruence.
    + exists w. split; [right; apply filter_In; split; [exact Hw|rewrite Ex; reflexivity]|exact E].
Qed.
End Loop.

Definition keyed (v : voteline) : str := prefs_key (v_prefs v).
Definition merged (ls : list voteline) (v : voteline) : voteline :=
  vl (ballots_where (fun w => eqk keyed v w) ls) (v_prefs v).

Lemma dget_map_key {V} (f : voteline -> V) k l :
  dget k (map (fun v => (keyed v, f v)) l) = option_map f (find (fun v => str_eqb k (keyed v)) l).
Proof. induction l as [|x l IH]; [reflexivity|]. cbn [map dget find]. destruct (str_eqb k (keyed x)); [reflexivity|exact IH]. Qed.

Lemma dset_map_key {V} (f g : voteline -> V) k l w : NoDup (map keyed l) -> In w l -> keyed w = k ->
  (forall x, In x l -> keyed x <> k -> f x = g x) ->
  dset k (g w) (map (fun v => (keyed v, f v)) l) = map (fun v => (keyed v, g v)) l.
Proof.
  induction l as [|x l IH]; intros Hn Hw Hk Hf; [destruct Hw|]. cbn [map] in Hn. inversion Hn; subst. cbn [map dset].
  destruct (str_eqb_spec (keyed w) (keyed x)) as [E|E].
  - destruct Hw as [->|Hw].
    + f_equal. apply map_ext_in. intros y Hy. f_equal. apply Hf; [right; exact Hy|]. intro E'. apply H1. rewrite <- E'. apply in_map, Hy.
    + exfalso. apply H1. rewrite <- E. apply in_map, Hw.
  - destruct Hw as [->|Hw]; [congruence|]. rewrite (Hf x) by (auto; left; reflexivity). f_equal. apply IH; auto. intros y Hy. apply Hf. right; exact Hy.
Qed.

Lemma ballots_where_app p a b : ballots_where p (a ++ b) = ballots_where p a + ballots_where p b.
Proof. unfold ballots_where. rewrite map_app, zsum_app. reflexivity. Qed.

Lemma consolidate_fold ls : fold_left consolidate_step ls [] = map (fun v => (keyed v, merged ls v)) (firsts keyed ls).
Proof.
  induction ls as [|v ls IH] using rev_ind; [reflexivity|]. rewrite fold_left_app, IH. cbn [fold_left]. unfold consolidate_step. fold (keyed v).
  rewrite firsts_snoc.
  assert (Q : forall x, merged (ls ++ [v]) x = vl (v_qty (merged ls x) + (if eqk keyed x v then v_qty v else 0)) (v_prefs x)).
  { intro x. unfold merged. rewrite ballots_where_app. cbn [v_qty vl]. unfold ballots_where at 2. cbn [map zsum]. rewrite Z.add_0_r. reflexivity. }
  destruct (existsb (fun x => eqk keyed x v) ls) eqn:Ee.
  - rewrite app_nil_r. apply existsb_exists in Ee as (y&Hy&Ey). destruct (firsts_has keyed ls y Hy) as (w&Hw&Ew).
    assert (Ek : keyed w = keyed v). { unfold eqk in *. apply str_eqb_eq in Ew, Ey. congruence. }
    assert (Hd : dget (keyed v) (map (fun v => (keyed v, merged ls v)) (firsts keyed ls)) = Some (merged ls w)).
    { apply dget_In_nodup; [|apply in_map_iff; exists w; rewrite Ek; auto]. unfold dkeys. rewrite map_map. cbn [fst]. apply firsts_keys. }
    unfold dmem. rewrite Hd. rewrite Hd.
    replace (with_qty (merged ls w) (v_qty (merged ls w) + v_qty v)) with (merged (ls ++ [v]) w).
    + apply dset_map_key; [apply firsts_keys|exact Hw|exact Ek|]. intros x Hx Hn. rewrite Q. unfold eqk.
      rewrite (proj2 (str_eqb_neq _ _) Hn). rewrite Z.add_0_r. reflexivity.
    + rewrite Q. unfold eqk at 1. rewrite Ek, str_eqb_refl. reflexivity.
  - assert (Hd : dget (keyed v) (map (fun v => (keyed v, merged ls v)) (firsts keyed ls)) = None).
    { rewrite dget_map_key. destruct (find (fun x => str_eqb (keyed v) (keyed x)) (firsts keyed ls)) as [w|] eqn:Ef; [|reflexivity]. exfalso.
      apply find_some in Ef as [Hw Ek]. apply str_eqb_eq in Ek. apply firsts_incl in Hw.
      assert (X : existsb (fun x => eqk keyed x v) ls = true); [|congruence]. apply existsb_exists. exists w. split; [exact Hw|]. unfold eqk. rewrite Ek. apply str_eqb_refl. }
    unfold dmem. rewrite Hd. rewrite dget_dset_same.
    assert (Hn : ~ In (keyed v) (dkeys (map (fun v => (keyed v, merged ls v)) (firsts keyed ls)))) by (apply dget_None, Hd).
    rewrite (dkeys_dset_nIn _ _ _ Hn). rewrite map_app. cbn [map].
    assert (E1 : forall d : dict voteline, ~ In (keyed v) (dkeys d) -> forall a b, dset (keyed v) a (d ++ [(keyed v, b)]) = d ++ [(keyed v, a)]).
    { clear. generalize (keyed v) as k. clear v. induction d as [|[k' x] d IH]; intros Hn a b; cbn [app dset]; [rewrite str_eqb_refl; reflexivity|].
      unfold dkeys in Hn. cbn [map fst In] in Hn. destruct (str_eqb_spec k k') as [->|]; [destruct Hn; left; reflexivity|]. f_equal. apply IH. unfold dkeys. tauto. }
    rewrite E1 by exact Hn. f_equal.
    + apply map_ext_in. intros x Hx. f_equal. rewrite Q. apply firsts_incl in Hx.
      destruct (eqk keyed x v) eqn:Ex; [|rewrite Z.add_0_r; reflexivity]. exfalso.
      assert (X : existsb (fun x => eqk keyed x v) ls = true); [|congruence]. apply existsb_exists. exists x. auto.
    + do 2 f_equal. rewrite Q. unfold eqk at 1. rewrite str_eqb_refl. cbn [with_qty vl v_qty v_prefs v_comment v_prefstr v_voterid v_nameq merged].
      assert (B0 : ballots_where (fun w => eqk keyed v w) ls = 0); [|rewrite B0; reflexivity]. unfold ballots_where.
      assert (Z0 : forall l, (forall x, In x l -> x = 0) -> zsum l = 0). { induction l as [|a l IHl]; intro H; [reflexivity|]. cbn. rewrite (H a (or_introl eq_refl)), IHl; [reflexivity|]. intros x Hx; apply H; right; exact Hx. }
      apply Z0. intros x Hx. apply in_map_iff in Hx as (y&<-&Hy). destruct (eqk keyed v y) eqn:E2; [|reflexivity]. exfalso.
      assert (X : existsb (fun x => eqk keyed x v) ls = true); [|congruence]. apply existsb_exists. exists y. split; [exact Hy|]. unfold eqk in *. rewrite str_eqb_sym. exact E2.
Qed.

Lemma firsts_first ls : (forall v, In v ls -> clean_line v) -> firsts keyed ls = first_of_each ls.
Proof.
  induction ls as [|v ls IH]; intro H; [reflexivity|]. cbn [firsts first_of_each]. rewrite IH by (intros w Hw; apply H; right; exact Hw). f_equal.
  apply filter_ext_in. intros w Hw. f_equal. unfold eqk, keyed. apply key_same; [apply H; left; reflexivity|]. apply H. right.
  assert (I : incl (first_of_each ls) ls). { rewrite <- IH by (intros x Hx; apply H; right; exact Hx). apply firsts_incl. } apply I, Hw.
Qed.

Lemma consolidate_eq m : (forall v, In v (j_votelines m) -> clean_line v) ->
  j_votelines (consolidate m) =
  map (fun v => vl (ballots_where (fun w => same_line v w) (j_votelines m)) (v_prefs v)) (first_of_each (j_votelines m)).
Proof.
  intro H. unfold consolidate. cbn [j_votelines]. rewrite consolidate_fold, map_map. cbn [snd]. rewrite firsts_first by exact H.
  apply map_ext_in. intros v Hv. unfold merged. f_equal. unfold ballots_where. f_equal. apply map_ext_in. intros w Hw.
  replace (eqk keyed v w) with (same_line v w); [reflexivity|]. symmetry. apply key_same; [|apply H, Hw]. apply H.
  rewrite <- firsts_first in Hv by exact H. apply firsts_incl in Hv. exact Hv.
Qed.
