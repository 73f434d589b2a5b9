(** * IrvStrict: IRV on ballots without equal ranks; determinism; further trace facts *)

From Verif Require Import PyBase PyFacts Jabmod PairwiseModel Spec PairwiseFacts IrvModel IrvFacts.
Local Open Scope Z_scope.

(** ** The tier search *)

Lemma yloop_spec pre post yr x :
  pre <> [] -> (forall r, In r pre -> r <= x) -> (forall r, In r post -> x < r) -> x < yr ->
  yloop (rev (pre ++ post)) (length (pre ++ post)) yr x = (length pre - 1)%nat.
Proof.
  intros Hne Hpre. revert yr. induction post as [|z p IH] using rev_ind; intros yr Hpost Hy.
  - rewrite app_nil_r. destruct pre as [|a t _] using rev_ind; [congruence|].
    rewrite rev_app_distr, app_length. cbn [rev app length yloop].
    destruct (Z.gtb_spec yr x); [|lia].
    assert (a <= x) by (apply Hpre; apply in_or_app; right; left; reflexivity).
    destruct (rev t); cbn [yloop]; destruct (Z.gtb_spec a x); lia.
  - rewrite app_assoc, rev_app_distr, app_length. cbn [rev app length yloop].
    destruct (Z.gtb_spec yr x); [|lia].
    replace (length (pre ++ p) + 1 - 1)%nat with (length (pre ++ p)) by lia. apply IH.
    + intros r Hr. apply Hpost. apply in_or_app; left; exact Hr.
    + apply Hpost. apply in_or_app; right; left; reflexivity.
Qed.

Lemma tier_end_strict k x r :
  x < big_rank -> (forall kr, In kr r -> x < snd kr) -> tier_end ((k, x) :: r) x = 0%nat.
Proof.
  intros Hx Hr. unfold tier_end. cbn [map snd].
  replace (length ((k, x) :: r)) with (length ([x] ++ map snd r)) by (cbn [app length]; rewrite map_length; reflexivity).
  change (x :: map snd r) with ([x] ++ map snd r).
  rewrite yloop_spec; [reflexivity|discriminate| | |exact Hx].
  - intros y [<-|[]]; lia.
  - intros y Hy. apply in_map_iff in Hy as [kr [<- Hk]]. auto.
Qed.

(** ** Strict lines *)

Lemma rank_on_In l c p : NoDup (map fst (v_prefs l)) -> In (c, p) (v_prefs l) -> rank_on l c = p_rank p.
Proof. intros Hn Hi. unfold rank_on. rewrite (dget_In_nodup c p); auto. Qed.

Lemma strict_sorted l k x r :
  NoDup (map fst (v_prefs l)) -> has_ranks l -> strict_line big_rank l ->
  sort_asc snd (map with_rank (v_prefs l)) = (k, x) :: r ->
  x < big_rank /\ (forall kr, In kr r -> x < snd kr) /\ rank_on l k = Some x /\ k <> [] /\
  In k (map fst (v_prefs l)) /\
  (forall c y, rank_on l c = Some y -> c <> k -> x < y).
Proof.
  intros Hn Hr [Hs [Hb He]] Es.
  assert (P : Permutation ((k, x) :: r) (map with_rank (v_prefs l))) by (rewrite <- Es; apply sort_asc_perm).
  assert (HR : forall c y, In (c, y) ((k, x) :: r) -> rank_on l c = Some y /\ In c (map fst (v_prefs l))).
  { intros c y Hi. apply (Permutation_in _ P) in Hi. apply in_map_iff in Hi as [[c0 p0] [E Hi]].
    unfold with_rank in E. cbn in E. inversion E; subst. split.
    - rewrite (rank_on_In l c p0 Hn Hi). specialize (Hr _ _ Hi). unfold rk. destruct (p_rank p0); [reflexivity|congruence].
    - change c with (fst (c, p0)). apply in_map; exact Hi. }
  assert (Hnd : NoDup (map fst ((k, x) :: r))).
  { apply (Permutation_NoDup (Permutation_map fst (Permutation_sym P))). rewrite map_map. exact Hn. }
  assert (Hss : StronglySorted (fun a b => snd a <= snd b) ((k, x) :: r)) by (rewrite <- Es; apply sort_asc_sorted).
  inversion Hss as [|? ? _ Hf]; subst. rewrite Forall_forall in Hf. cbn [snd] in Hf.
  destruct (HR k x (or_introl eq_refl)) as [Hk Hkin].
  assert (HL : forall kr, In kr r -> x < snd kr).
  { intros [c y] Hkr. specialize (Hf _ Hkr). cbn [snd] in *.
    destruct (Z.eq_dec x y) as [->|]; [|lia]. exfalso.
    destruct (HR c y (or_intror Hkr)) as [Hc _]. assert (c = k) by (apply (Hs c k y); assumption). subst c.
    inversion Hnd as [|? ? Hni _]; subst. apply Hni. change k with (fst (k, y)). apply in_map; exact Hkr. }
  repeat split; auto.
  - exact (Hb k x Hk).
  - intros ->. apply He. exact Hkin.
  - intros c y Hc Hne. assert (Hi : In (c, y) ((k, x) :: r)).
    { apply (Permutation_in _ (Permutation_sym P)). unfold rank_on in Hc.
      destruct (dget c (v_prefs l)) as [p|] eqn:Ed; [|discriminate]. apply dget_In in Ed.
      apply in_map_iff. exists (c, p). split; [|exact Ed]. unfold with_rank, rk. cbn. rewrite Hc. reflexivity. }
    destruct Hi as [Hi|Hi]; [inversion Hi; subst; congruence|]. apply (HL _ Hi).
Qed.

Lemma strict_not_overvoted l :
  NoDup (map fst (v_prefs l)) -> has_ranks l -> strict_line big_rank l -> top_overvoted l = Ok false.
Proof.
  intros Hn Hr Hs. unfold top_overvoted. rewrite ranked_list_ok by exact Hr. cbn [bind].
  destruct (sort_asc snd (map with_rank (v_prefs l))) as [|[k x] r] eqn:Es; [reflexivity|].
  destruct (strict_sorted l k x r Hn Hr Hs Es) as [H1 [H2 _]].
  rewrite tier_end_strict by assumption. reflexivity.
Qed.

Lemma lists_In l c : lists l c = true <-> In c (map fst (v_prefs l)).
Proof. apply (dmem_In c (v_prefs l)). Qed.

Lemma strict_top l c :
  NoDup (map fst (v_prefs l)) -> has_ranks l -> strict_line big_rank l ->
  (top l = Some c <-> lists l c = true /\ forall d, lists l d = true -> d <> c -> prefers l c d = true).
Proof.
  intros Hn Hr Hs. unfold top.
  assert (Et : topcand (length (v_prefs l)) (v_prefs l) =
     match sort_asc snd (map with_rank (v_prefs l)) with [] => Ok None | (k, x) :: r => Ok (Some k) end).
  { destruct (length (v_prefs l)) eqn:El; cbn [topcand]; rewrite ranked_list_ok by exact Hr; cbn [bind];
    destruct (sort_asc snd (map with_rank (v_prefs l))) as [|[k x] r] eqn:Es; try reflexivity;
    destruct (strict_sorted l k x r Hn Hr Hs Es) as [H1 [H2 _]]; rewrite tier_end_strict by assumption; reflexivity. }
  rewrite Et. clear Et.
  destruct (sort_asc snd (map with_rank (v_prefs l))) as [|[k x] r] eqn:Es.
  - split; [discriminate|]. intros [H _]. exfalso. apply lists_In in H.
    assert (P : Permutation (sort_asc snd (map with_rank (v_prefs l))) (map with_rank (v_prefs l))) by apply sort_asc_perm.
    rewrite Es in P. apply Permutation_nil in P. apply map_eq_nil in P. rewrite P in H. destruct H.
  - destruct (strict_sorted l k x r Hn Hr Hs Es) as (H1&H2&H3&H4&H5&H6).
    assert (HP : forall d, lists l d = true -> d <> k -> prefers l k d = true).
    { intros d Hd Hne. unfold prefers. rewrite H3. destruct (rank_on l d) as [y|] eqn:Ed; [|reflexivity].
      specialize (H6 d y Ed Hne). lia. }
    destruct k as [|a s]; [congruence|]. split.
    + intro E. inversion E; subst. split; [apply lists_In; exact H5|]. intros d Hd Hne. apply HP; auto.
    + intros [Hl Hp]. f_equal. destruct (str_eq_dec (a :: s) c) as [|Hne]; [assumption|exfalso].
      specialize (Hp (a :: s) (proj2 (lists_In l _) H5) Hne). specialize (HP c Hl (not_eq_sym Hne)).
      rewrite (prefers_asym _ _ _ HP) in Hp. discriminate.
Qed.

(** ** Lines of later rounds *)

Lemma dget_without e l c : dget c (v_prefs (without e l)) = if memb c e then None else dget c (v_prefs l).
Proof.
  unfold without. cbn [with_prefs v_prefs]. induction (v_prefs l) as [|[k p] r IH]; cbn [filter dget].
  - destruct (memb c e); reflexivity.
  - cbn [fst]. destruct (memb k e) eqn:Ek; cbn [negb dget].
    + rewrite IH. destruct (str_eqb_spec c k) as [->|]; [|reflexivity]. rewrite Ek. reflexivity.
    + destruct (str_eqb_spec c k) as [->|]; [rewrite Ek; reflexivity|exact IH].
Qed.

Lemma rank_on_without e l c : rank_on (without e l) c = if memb c e then None else rank_on l c.
Proof. unfold rank_on. rewrite dget_without. destruct (memb c e); reflexivity. Qed.

Lemma lists_without e l c : lists (without e l) c = negb (memb c e) && lists l c.
Proof. unfold lists. rewrite dget_without. destruct (memb c e); reflexivity. Qed.

Lemma strict_without e l b : strict_line b l -> strict_line b (without e l).
Proof.
  intros [H1 [H2 H3]]. repeat split.
  - intros c c' r. rewrite !rank_on_without. destruct (memb c e), (memb c' e); try discriminate. apply H1.
  - intros c r. rewrite rank_on_without. destruct (memb c e); [discriminate|apply H2].
  - intro Hi. apply H3. cbn in Hi. apply in_map_iff in Hi as [kv [E Hf]]. apply filter_In in Hf as [Hf _].
    rewrite <- E. apply in_map; exact Hf.
Qed.

Lemma memb_app c a b : memb c (a ++ b) = memb c a || memb c b.
Proof. induction a as [|x r IH]; simpl; [reflexivity|]. rewrite IH. apply orb_assoc. Qed.

Lemma without_app e1 e2 l : without e2 (without e1 l) = without (e1 ++ e2) l.
Proof.
  unfold without, with_prefs. cbn. f_equal. rewrite filter_filter. apply filter_ext.
  intro kv. rewrite memb_app, negb_orb. reflexivity.
Qed.

Definition strict_lines (ls : list voteline) : Prop := forall l, In l ls -> strict_line big_rank l.

Lemma strict_pruned cs ls : lines_inv cs ls -> strict_lines ls -> pruned ls = ls /\ overvoted ls = 0.
Proof.
  intros Hi Hs.
  assert (E : discard_overvotes ls = Ok (0, ls)).
  { induction ls as [|l r IH]; [reflexivity|]. cbn [discard_overvotes].
    destruct (Hi l (or_introl eq_refl)) as [[H1 _] H2].
    rewrite strict_not_overvoted; [|exact H1|exact H2|apply Hs; left; reflexivity]. cbn [bind].
    rewrite IH; [reflexivity| |]; intros x Hx; [apply Hi|apply Hs]; right; exact Hx. }
  unfold pruned, overvoted. rewrite E. auto.
Qed.

(** The remaining candidates [cs] are those of [cs0] not in [gone]. *)
Definition remaining (cs0 gone cs : list str) : Prop := forall c, In c cs <-> In c cs0 /\ ~ In c gone.

(** In a round with candidates [cs], a line counts for [c] iff [c] is its top choice among [cs]. *)
Lemma strict_is_top cs0 gone cs l c :
  line_ok cs0 l -> has_ranks l -> strict_line big_rank l -> remaining cs0 gone cs ->
  is_top (without gone l) c = top_choice cs l c.
Proof.
  intros [Hn Hin] Hr Hs Hrem.
  assert (Hn' : NoDup (map fst (v_prefs (without gone l)))) by (cbn; apply NoDup_map_fst_filter; exact Hn).
  assert (L : forall d, lists (without gone l) d = memb d cs && lists l d).
  { intro d. rewrite lists_without. destruct (lists l d) eqn:El; [|rewrite !andb_false_r; reflexivity].
    rewrite !andb_true_r. apply lists_In in El. apply Hin in El.
    destruct (memb d cs) eqn:Em.
    - apply memb_In, Hrem in Em. apply negb_true_iff, memb_nIn. tauto.
    - apply memb_nIn in Em. apply negb_false_iff. destruct (memb d gone) eqn:Eg; [reflexivity|].
      exfalso. apply Em, Hrem. split; [exact El|]. apply memb_nIn; exact Eg. }
  assert (PR : forall a b, memb a cs = true -> lists l a = true -> memb b cs = true ->
             prefers (without gone l) a b = prefers l a b).
  { intros a b Ha Hla Hb. unfold prefers. rewrite !rank_on_without.
    apply memb_In, Hrem in Ha as [_ Ha]. apply memb_In, Hrem in Hb as [_ Hb].
    rewrite (proj2 (memb_nIn _ _) Ha), (proj2 (memb_nIn _ _) Hb). reflexivity. }
  pose proof (strict_top (without gone l) c Hn' (has_ranks_without _ _ Hr) (strict_without _ _ _ Hs)) as ST.
  destruct (is_top (without gone l) c) eqn:Ei.
  - unfold is_top in Ei. destruct (top (without gone l)) as [x|] eqn:Et; [|discriminate]. apply str_eqb_eq in Ei. subst x.
    destruct (proj1 ST eq_refl) as [H1 H2]. symmetry. unfold top_choice. rewrite L in H1.
    apply andb_prop in H1 as [Hm Hl]. rewrite Hm, Hl. cbn [andb]. apply forallb_forall. intros d Hd.
    destruct (str_eqb_spec c d) as [|n]; [reflexivity|]. cbn [orb].
    destruct (lists l d) eqn:Eld.
    + rewrite <- PR; auto; [|apply memb_In; exact Hd]. apply H2; [|congruence]. rewrite L, Eld.
      rewrite (proj2 (memb_In _ _) Hd). reflexivity.
    + apply lists_In in Hl. apply in_map_iff in Hl as [[k p] [Ek Hk]]. simpl in Ek; subst k.
      unfold prefers. rewrite (rank_on_In l c p Hn Hk). specialize (Hr c p Hk).
      destruct (p_rank p); [|congruence]. unfold rank_on. unfold lists in Eld. destruct (dget d (v_prefs l)); [discriminate|reflexivity].
  - symmetry. destruct (top_choice cs l c) eqn:Etc; [|reflexivity]. exfalso.
    unfold top_choice in Etc. apply andb_prop in Etc as [Etc Hall]. apply andb_prop in Etc as [Hm Hl].
    rewrite forallb_forall in Hall.
    assert (top (without gone l) = Some c).
    { apply ST. split; [rewrite L, Hm, Hl; reflexivity|]. intros d Hd Hne. rewrite L in Hd. apply andb_prop in Hd as [Hdm Hdl].
      rewrite PR by assumption. apply memb_In in Hdm. specialize (Hall d Hdm).
      destruct (str_eqb_spec c d); [congruence|exact Hall]. }
    unfold is_top in Ei. rewrite H, str_eqb_refl in Ei. discriminate.
Qed.

(** A line has no top choice iff it lists nobody still standing. *)
Lemma strict_no_top cs0 gone cs l :
  line_ok cs0 l -> has_ranks l -> strict_line big_rank l -> remaining cs0 gone cs ->
  no_top (without gone l) = lists_nobody cs l.
Proof.
  intros [Hn Hin] Hr Hs Hrem.
  assert (Hn' : NoDup (map fst (v_prefs (without gone l)))) by (cbn; apply NoDup_map_fst_filter; exact Hn).
  unfold lists_nobody, no_top.
  destruct (top (without gone l)) as [c|] eqn:Et.
  - apply (strict_top _ c Hn' (has_ranks_without _ _ Hr) (strict_without _ _ _ Hs)) in Et as [H1 _].
    rewrite lists_without in H1. apply andb_prop in H1 as [Hg Hl]. apply negb_true_iff, memb_nIn in Hg.
    symmetry. destruct (forallb (fun c0 => negb (lists l c0)) cs) eqn:Ef; [|reflexivity].
    rewrite forallb_forall in Ef. specialize (Ef c). rewrite Hl in Ef. exfalso.
    assert (In c cs) by (apply Hrem; split; [apply Hin, lists_In; exact Hl|exact Hg]). specialize (Ef H). discriminate.
  - symmetry. apply forallb_forall. intros c Hc. apply negb_true_iff. destruct (lists l c) eqn:El; [exfalso|reflexivity].
    (* the line restricted is non-empty, so it has a top *)
    assert (Hi : lists (without gone l) c = true).
    { rewrite lists_without, El. apply Hrem in Hc as [_ Hc]. rewrite (proj2 (memb_nIn _ _) Hc). reflexivity. }
    unfold top in Et.
    assert (Hr' := has_ranks_without gone l Hr).
    assert (Hs' := strict_without gone l big_rank Hs).
    assert (Etc : exists k r, sort_asc snd (map with_rank (v_prefs (without gone l))) = k :: r).
    { destruct (sort_asc snd (map with_rank (v_prefs (without gone l)))) as [|k r] eqn:Es; [|eauto].
      assert (P : Permutation (sort_asc snd (map with_rank (v_prefs (without gone l)))) (map with_rank (v_prefs (without gone l)))) by apply sort_asc_perm.
      rewrite Es in P. apply Permutation_nil, map_eq_nil in P. apply lists_In in Hi. rewrite P in Hi. destruct Hi. }
    destruct Etc as [[k x] [r Es]].
    destruct (strict_sorted (without gone l) k x r Hn' Hr' Hs' Es) as (H1&H2&H3&H4&H5&H6).
    destruct k as [|a s]; [congruence|].
    destruct (length (v_prefs (without gone l))) eqn:El'; cbn [topcand] in Et; rewrite ranked_list_ok in Et by exact Hr';
      cbn [bind] in Et; rewrite Es in Et; rewrite tier_end_strict in Et by assumption; discriminate.
Qed.

Lemma ballots_where_ext p q ls : (forall l, In l ls -> p l = q l) -> ballots_where p ls = ballots_where q ls.
Proof. intro H. unfold ballots_where. apply zsum_map_ext. intros l Hl. rewrite H by exact Hl. reflexivity. Qed.

Lemma ballots_where_without p e ls :
  ballots_where p (map (without e) ls) = ballots_where (fun l => p (without e l)) ls.
Proof. unfold ballots_where. rewrite map_map. reflexivity. Qed.

(** Lines of a round as a function of the original lines [ls0]. *)
Definition strict_state (cs0 : list str) (ls0 : list voteline) (gone cs : list str) (ls : list voteline) : Prop :=
  lines_inv cs0 ls0 /\ strict_lines ls0 /\ remaining cs0 gone cs /\ ls = map (without gone) ls0.

Lemma strict_tally cs0 ls0 gone cs ls :
  strict_state cs0 ls0 gone cs ls -> lines_inv cs ls ->
  pruned ls = ls /\ overvoted ls = 0 /\
  (forall c, tally ls c = ballots_where (fun l => top_choice cs l c) ls0) /\
  exhausted ls = ballots_where (lists_nobody cs) ls0.
Proof.
  intros (Hi&Hs&Hrem&->) Hl.
  assert (Hs' : strict_lines (map (without gone) ls0)).
  { intros l Hll. apply in_map_iff in Hll as [l0 [<- Hl0]]. apply strict_without, Hs, Hl0. }
  destruct (strict_pruned cs _ Hl Hs') as [Ep Eo]. split; [exact Ep|]. split; [exact Eo|]. split.
  - intro c. unfold tally. rewrite Ep, ballots_where_without. apply ballots_where_ext. intros l Hll.
    destruct (Hi l Hll) as [H1 H2]. apply (strict_is_top cs0); auto.
  - unfold exhausted. rewrite Ep, ballots_where_without. apply ballots_where_ext. intros l Hll.
    destruct (Hi l Hll) as [H1 H2]. apply (strict_no_top cs0); auto.
Qed.

Lemma strict_next cs0 ls0 gone cs ls e cs' :
  strict_state cs0 ls0 gone cs ls -> lines_inv cs ls -> Permutation cs' (set_minus cs e) ->
  strict_state cs0 ls0 (gone ++ e) cs' (map (without e) (pruned ls)).
Proof.
  intros Hst Hl P. destruct (strict_tally _ _ _ _ _ Hst Hl) as [Ep _]. destruct Hst as (Hi&Hs&Hrem&->).
  split; [exact Hi|]. split; [exact Hs|]. split.
  - intro c. split.
    + intro H. apply (Permutation_in _ P), set_minus_In in H as [H H2]. apply Hrem in H. rewrite in_app_iff. tauto.
    + intros [H1 H2]. apply (Permutation_in _ (Permutation_sym P)). apply set_minus_In. rewrite in_app_iff in H2.
      split; [apply Hrem|]; tauto.
  - rewrite Ep, map_map. apply map_ext. intro l. apply without_app.
Qed.

Lemma strict_init cs ls : lines_inv cs ls -> strict_lines ls -> strict_state cs ls [] cs ls.
Proof.
  intros Hi Hs. split; [exact Hi|]. split; [exact Hs|]. split; [intro c; split; [intro H; split; [exact H|intros []]|tauto]|].
  rewrite <- (map_id ls) at 1. apply map_ext. intros [q ps cm pf vid nq]. unfold without, with_prefs; cbn. f_equal.
  symmetry. apply filter_all. reflexivity.
Qed.
