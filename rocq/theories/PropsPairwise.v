(** * Properties C01-C09: pairwise tally, win-loss-tie table, Copeland (abiflib/pairwise.py) *)

From Verif Require Import PyBase PyFacts Jabmod PairwiseModel Spec PairwiseFacts.
Local Open Scope Z_scope.

(** A sample election used to show that hypotheses are satisfiable: five kinds of ballots, an equal
    ranking, a truncated ballot and an empty one. *)
Definition A := u "A". Definition B := u "B". Definition C := u "C". Definition D := u "D".
Definition E := u "E". Definition F := u "F".

Definition sample : jabmod := Jabmod [] [(A, u "Ann"); (B, u "Bob"); (C, u "Cy")]
  [ vl 27 [(A, ranked 1); (B, ranked 2); (C, ranked 3)];
    vl 26 [(C, ranked 1); (B, ranked 2); (A, ranked 3)];
    vl 25 [(B, ranked 1); (C, ranked 1)];
    vl 3 [(C, ranked 2)];
    vl 1 [] ].

(** A model in the domain of the tally theorems: no duplicate candidate key, and every candidate
    listed on a line has a rank (below sys.maxsize, which the code uses for "not listed"). *)
Definition tallyable (m : jabmod) : Prop :=
  NoDup (cands m) /\ forall l, In l (j_votelines m) -> line_ranked maxsize l = true.

Lemma tallyable_forallb m :
  tallyable m -> NoDup (cands m) /\ forallb (line_ranked maxsize) (j_votelines m) = true.
Proof. intros [H1 H2]. split; [exact H1|]. apply forallb_forall; exact H2. Qed.

Ltac nodup := repeat (constructor; [simpl; intuition discriminate|]); try constructor.

Example sample_tallyable : tallyable sample.
Proof. split; [nodup|]. intros l Hl. simpl in Hl. intuition (subst; reflexivity). Qed.

(** ** C01 *)
Theorem C01_pairwise_exact : forall m, tallyable m ->
  pairwise_count_dict m =
  Ok (matrix (cands m) (fun a b => if str_eqb a b then None else Some (votes_over m a b))).
Proof. intros m H. apply tallyable_forallb in H as [H1 H2]. apply pairwise_tally; assumption. Qed.
Print Assumptions C01_pairwise_exact.

(** The same, cell by cell. *)
Theorem C01_cells : forall m pm, tallyable m -> pairwise_count_dict m = Ok pm ->
  map fst pm = cands m /\
  (forall a row, In (a, row) pm -> map fst row = cands m) /\
  (forall a b, In a (cands m) -> In b (cands m) -> a <> b -> mat_get a b pm = Some (Some (votes_over m a b))) /\
  (forall a, In a (cands m) -> mat_get a a pm = Some None).
Proof.
  intros m pm H E0. rewrite (C01_pairwise_exact m H) in E0. inversion E0; subst; clear E0.
  repeat split.
  - apply (dkeys_dmap (cands m)).
  - intros a row Hi. rewrite matrix_dmap in Hi. apply in_map_iff in Hi as [x [Hx _]]. inversion Hx; subst.
    apply dkeys_dmap.
  - intros a b Ha Hb n. rewrite mat_get_matrix by assumption. rewrite (proj2 (str_eqb_neq _ _) n). reflexivity.
  - intros a Ha. rewrite mat_get_matrix by assumption. rewrite str_eqb_refl. reflexivity.
Qed.
Print Assumptions C01_cells.

Example C01_nonvacuous :
  pairwise_count_dict sample =
  Ok [ (A, [(A, None); (B, Some 27); (C, Some 27)]);
       (B, [(A, Some 51); (B, None); (C, Some 27)]);
       (C, [(A, Some 54); (B, Some 29); (C, None)]) ].
Proof. reflexivity. Qed.

(** ** C02 *)
Theorem C02_pairwise_accounting : forall m pm a b vab vba, tallyable m -> pairwise_count_dict m = Ok pm ->
  In a (cands m) -> In b (cands m) -> a <> b ->
  mat_get a b pm = Some (Some vab) -> mat_get b a pm = Some (Some vba) ->
  vab + vba + ballots_where (fun l => negb (prefers l a b) && negb (prefers l b a)) (j_votelines m)
  = total_ballots m.
Proof.
  intros m pm a b vab vba H E0 Ha Hb n E1 E2. destruct (C01_cells m pm H E0) as [_ [_ [Hc _]]].
  rewrite Hc in E1 by assumption. rewrite Hc in E2 by (assumption || congruence).
  inversion E1; inversion E2; subst. apply pair_accounting.
Qed.
Print Assumptions C02_pairwise_accounting.

Theorem C02_pairwise_bounded : forall m pm a b vab vba, tallyable m -> pairwise_count_dict m = Ok pm ->
  (forall l, In l (j_votelines m) -> 0 <= v_qty l) ->
  In a (cands m) -> In b (cands m) -> a <> b ->
  mat_get a b pm = Some (Some vab) -> mat_get b a pm = Some (Some vba) ->
  0 <= vab /\ 0 <= vba /\ vab + vba <= total_ballots m.
Proof.
  intros m pm a b vab vba H E0 Hq Ha Hb n E1 E2.
  pose proof (C02_pairwise_accounting m pm a b vab vba H E0 Ha Hb n E1 E2) as Hacc.
  destruct (C01_cells m pm H E0) as [_ [_ [Hc _]]].
  rewrite Hc in E1 by assumption. rewrite Hc in E2 by (assumption || congruence).
  inversion E1; inversion E2; subst.
  pose proof (ballots_where_nonneg (fun l => negb (prefers l a b) && negb (prefers l b a)) _ Hq).
  pose proof (ballots_where_nonneg (fun l => prefers l a b) _ Hq).
  pose proof (ballots_where_nonneg (fun l => prefers l b a) _ Hq). unfold votes_over in *. lia.
Qed.
Print Assumptions C02_pairwise_bounded.

Example C02_nonvacuous : total_ballots sample = 82 /\
  ballots_where (fun l => negb (prefers l B C) && negb (prefers l C B)) (j_votelines sample) = 26.
Proof. split; reflexivity. Qed.

(** ** C03 *)
Definition with_lines (m : jabmod) (ls : list voteline) : jabmod :=
  Jabmod (j_metadata m) (j_candidates m) ls.

Lemma tally_ext m m' : tallyable m -> tallyable m' -> j_candidates m = j_candidates m' ->
  (forall a b, votes_over m a b = votes_over m' a b) -> pairwise_count_dict m = pairwise_count_dict m'.
Proof.
  intros H H' Hc Hv. rewrite !C01_pairwise_exact by assumption. unfold cands. rewrite Hc. f_equal.
  apply matrix_ext. intros a b _ _. rewrite Hv. reflexivity.
Qed.

Theorem C03_line_order_irrelevant : forall m ls', tallyable m -> Permutation (j_votelines m) ls' ->
  pairwise_count_dict (with_lines m ls') = pairwise_count_dict m.
Proof.
  intros m ls' [H1 H2] P. apply tally_ext; [split; [exact H1|]|split; assumption|reflexivity|].
  - intros l Hl. apply H2. apply (Permutation_in _ (Permutation_sym P)). exact Hl.
  - intros a b. unfold votes_over. apply ballots_where_perm. symmetry. exact P.
Qed.
Print Assumptions C03_line_order_irrelevant.

Theorem C03_splitting_irrelevant : forall m ls1 ls2 l q1 q2, tallyable m ->
  j_votelines m = ls1 ++ l :: ls2 -> v_qty l = q1 + q2 ->
  pairwise_count_dict (with_lines m (ls1 ++ with_qty l q1 :: with_qty l q2 :: ls2)) = pairwise_count_dict m.
Proof.
  intros m ls1 ls2 l q1 q2 [H1 H2] E0 Hq. apply tally_ext; [split; [exact H1|]|split; assumption|reflexivity|].
  - simpl. intros l' Hl'. rewrite in_app_iff in Hl'. simpl in Hl'. rewrite E0 in H2.
    destruct Hl' as [Hl'|[<-|[<-|Hl']]].
    + apply H2. apply in_or_app; auto.
    + apply (H2 l). apply in_or_app; right; left; reflexivity.
    + apply (H2 l). apply in_or_app; right; left; reflexivity.
    + apply H2. apply in_or_app; right; right; exact Hl'.
  - intros a b. unfold votes_over, ballots_where. simpl. rewrite E0. rewrite !map_app, !zsum_app. simpl.
    change (prefers (with_qty l q1) a b) with (prefers l a b).
    change (prefers (with_qty l q2) a b) with (prefers l a b).
    destruct (prefers l a b); lia.
Qed.
Print Assumptions C03_splitting_irrelevant.

Example C03_nonvacuous :
  Permutation (j_votelines sample) (rev (j_votelines sample)) /\
  rev (j_votelines sample) <> j_votelines sample.
Proof. split; [apply Permutation_rev|discriminate]. Qed.

(** ** C04: false of the code.  A later line listing A without a rank erases A's 5 votes over B. *)
Definition reset_election : jabmod := Jabmod [] [(A, A); (B, B)]
  [ vl 5 [(A, ranked 1); (B, ranked 2)]; vl 1 [(A, empty_pref); (B, ranked 1)] ].

Theorem C04_unranked_line_erases_votes_refuted :
  pairwise_count_dict (with_lines reset_election [vl 5 [(A, ranked 1); (B, ranked 2)]])
    = Ok [(A, [(A, None); (B, Some 5)]); (B, [(A, Some 0); (B, None)])] /\
  pairwise_count_dict reset_election
    = Ok [(A, [(A, None); (B, Some 0)]); (B, [(A, Some 0); (B, None)])].
Proof. split; reflexivity. Qed.
Print Assumptions C04_unranked_line_erases_votes_refuted.

(** The exact behaviour without the "every listed candidate has a rank" condition: each cell counts
    only the lines after the last one that lists one of the two candidates without a rank. *)
Definition last_unranked_split (a b : str) (ls before after : list voteline) : Prop :=
  ls = before ++ after /\
  (forall l, In l after -> listed_unranked l a = false /\ listed_unranked l b = false) /\
  (before = [] \/ exists b0 l, before = b0 ++ [l] /\ (listed_unranked l a = true \/ listed_unranked l b = true)).

Lemma since_reset_split a b ls : exists before, last_unranked_split a b ls before (since_reset a b ls).
Proof.
  induction ls as [|l r IH]; simpl.
  - exists []. split; [reflexivity|]. split; [intros l []|left; reflexivity].
  - destruct (existsb _ r) eqn:E0.
    + destruct IH as [bf [H1 [H2 H3]]]. exists (l :: bf). repeat split; try (apply H2; assumption).
      * simpl. f_equal; exact H1.
      * right. destruct H3 as [->|[b0 [l0 [-> H3]]]].
        -- exfalso. simpl in H1. rewrite H1 in E0. apply existsb_exists in E0 as [x [Hx Hb]].
           destruct (H2 x Hx) as [G1 G2]. rewrite G1, G2 in Hb; discriminate.
        -- exists (l :: b0), l0. split; [reflexivity|exact H3].
    + assert (Hr : forall x, In x r -> listed_unranked x a = false /\ listed_unranked x b = false).
      { intros x Hx. destruct (listed_unranked x a) eqn:Ea, (listed_unranked x b) eqn:Eb; auto;
          (assert (existsb (fun l' => listed_unranked l' a || listed_unranked l' b) r = true)
             by (apply existsb_exists; exists x; rewrite Ea, Eb; auto)); congruence. }
      destruct (listed_unranked l a || listed_unranked l b) eqn:El.
      * exists [l]. repeat split; try (apply Hr; assumption). right. exists [], l. split; [reflexivity|].
        apply orb_prop in El; exact El.
      * exists []. apply orb_false_elim in El as [El1 El2]. repeat split; auto.
        -- destruct H as [<-|H]; [exact El1|apply Hr; exact H].
        -- destruct H as [<-|H]; [exact El2|apply Hr; exact H].
Qed.

Theorem C04_exact_behaviour : forall m a b,
  NoDup (cands m) -> (forall l, In l (j_votelines m) -> ranks_below maxsize l = true) ->
  In a (cands m) -> In b (cands m) -> a <> b ->
  exists pm before after,
    pairwise_count_dict m = Ok pm /\
    last_unranked_split a b (j_votelines m) before after /\
    mat_get a b pm = Some (Some (ballots_where (fun l => prefers l a b) after)).
Proof.
  intros m a b Hn Hr Ha Hb n. destruct (since_reset_split a b (j_votelines m)) as [bf H].
  rewrite pairwise_general by (try assumption; apply forallb_forall; exact Hr).
  do 3 eexists. split; [reflexivity|]. split; [exact H|].
  rewrite mat_get_matrix by assumption. rewrite (proj2 (str_eqb_neq _ _) n). reflexivity.
Qed.
Print Assumptions C04_exact_behaviour.

Example C04_nonvacuous : forall l, In l (j_votelines reset_election) -> ranks_below maxsize l = true.
Proof. intros l Hl; simpl in Hl; intuition (subst; reflexivity). Qed.

(** ** C05 *)

(** All candidates are recorded, each with its numbers of opponents beaten, of opponents lost to
    and TWICE its number of tied opponents. *)
Theorem C05_winlosstie_exact : forall m cc, tallyable m -> full_copecount m = Ok cc ->
  Permutation (map fst (cc_winlosstie cc)) (cands m) /\
  StronglySorted (fun x y => wins (snd y) <= wins (snd x)) (cc_winlosstie cc) /\
  forall c, In c (cands m) ->
    dget c (cc_winlosstie cc) =
    Some (Wlt (count (fun b => beats (votes_over m) c b) (others c (cands m)))
              (count (fun b => beats (votes_over m) b c) (others c (cands m)))
              (2 * count (fun b => ties_with (votes_over m) c b) (others c (cands m)))).
Proof.
  intros m cc H E0. unfold full_copecount in E0. rewrite (C01_pairwise_exact m H) in E0. simpl in E0.
  change (fun a b : str => if str_eqb a b then None else Some (votes_over m a b))
    with (offdiag (votes_over m)) in E0.
  destruct H as [Hn _].
  rewrite (winlosstie_exact (cands m) Hn) in E0 by reflexivity. simpl in E0. inversion E0; subst; clear E0. simpl.
  set (w := dmap (cands m) (wlt_of (cands m) (votes_over m))).
  assert (P : Permutation (sort_desc (fun kv : str * wlt => wins (snd kv)) w) w) by apply sort_desc_perm.
  assert (K : map fst w = cands m) by apply (dkeys_dmap (cands m)).
  split; [|split].
  - rewrite (Permutation_map fst P), K. reflexivity.
  - apply sort_desc_sorted.
  - intros c Hc. apply dget_In_nodup.
    + apply (Permutation_NoDup (l := cands m)); [|exact Hn].
      unfold dkeys. rewrite (Permutation_map fst P), K. reflexivity.
    + apply (Permutation_in _ (Permutation_sym P)). apply in_map_iff. exists c. split; [reflexivity|exact Hc].
Qed.
Print Assumptions C05_winlosstie_exact.

Theorem C05_copecount_total : forall m, tallyable m -> exists cc, full_copecount m = Ok cc.
Proof.
  intros m H. unfold full_copecount. rewrite (C01_pairwise_exact m H). simpl.
  change (fun a b : str => if str_eqb a b then None else Some (votes_over m a b))
    with (offdiag (votes_over m)).
  destruct H as [Hn _].
  rewrite (winlosstie_exact (cands m) Hn) by reflexivity. simpl. eauto.
Qed.
Print Assumptions C05_copecount_total.

(** wins + losses + ties/2 = number of opponents. *)
Theorem C05_wlt_sum : forall m cc c w, tallyable m -> full_copecount m = Ok cc -> In c (cands m) ->
  dget c (cc_winlosstie cc) = Some w ->
  2 * wins w + 2 * losses w + ties w = 2 * (Z.of_nat (length (cands m)) - 1).
Proof.
  intros m cc c w H E0 Hc Hw. destruct (C05_winlosstie_exact m cc H E0) as [_ [_ Hx]].
  rewrite (Hx c Hc) in Hw. apply some_inj in Hw. subst w. cbn [wins losses ties].
  destruct H as [Hn _]. pose proof (beats_ties_partition (cands m) Hn (votes_over m) c Hc). lia.
Qed.
Print Assumptions C05_wlt_sum.

(** The claim "ties = number of tied opponents" fails: one tied opponent is reported as two ties. *)
Definition tie_election : jabmod := Jabmod [] [(A, A); (B, B)]
  [ vl 1 [(A, ranked 1); (B, ranked 2)]; vl 1 [(B, ranked 1); (A, ranked 2)] ].

Theorem C05_ties_refuted :
  tallyable tie_election /\
  exists cc w, full_copecount tie_election = Ok cc /\ dget A (cc_winlosstie cc) = Some w /\ ties w = 2 /\
    count (fun b => ties_with (votes_over tie_election) A b) (others A (cands tie_election)) = 1.
Proof.
  split.
  - split; [nodup|]. intros l Hl. simpl in Hl. intuition (subst; reflexivity).
  - eexists. eexists. split; [vm_compute; reflexivity|]. split; [vm_compute; reflexivity|]. split; vm_compute; reflexivity.
Qed.
Print Assumptions C05_ties_refuted.

Example C05_nonvacuous : exists cc, full_copecount sample = Ok cc /\
  cc_winlosstie cc = [(C, Wlt 2 0 0); (B, Wlt 1 1 0); (A, Wlt 0 2 0)].
Proof. eexists. split; vm_compute; reflexivity. Qed.

(** ** C06 *)
Definition score2 (cc : copecount) (c : str) : option Z :=
  match dget c (cc_winlosstie cc) with Some w => Some (2 * wins w + ties w) | None => None end.

Lemma cope_nodup m cc : tallyable m -> full_copecount m = Ok cc -> NoDup (dkeys (cc_winlosstie cc)).
Proof.
  intros H E0. destruct (C05_winlosstie_exact m cc H E0) as [P _].
  apply (Permutation_NoDup (l := cands m)); [symmetry; exact P|apply H].
Qed.

(** The winner list is exactly the set of candidates with the greatest score (scores doubled, so that
    half points stay integers), each once. *)
Theorem C06_winners_are_argmax : forall m cc ws, tallyable m -> full_copecount m = Ok cc ->
  get_Copeland_winners cc = Ok ws ->
  ws <> [] /\ NoDup ws /\
  forall c, In c ws <->
    In c (cands m) /\
    exists s, score2 cc c = Some s /\ forall c' s', In c' (cands m) -> score2 cc c' = Some s' -> s' <= s.
Proof.
  intros m cc ws H E0 E1. pose proof (cope_nodup m cc H E0) as Hnd.
  destruct (C05_winlosstie_exact m cc H E0) as [P [_ Hx]].
  destruct (winners_spec cc ws E1) as [Hne Hw]. split; [exact Hne|]. split.
  - unfold get_Copeland_winners in E1. apply bind_ok in E1 as [mx [_ E1]]. inversion E1; subst; clear E1.
    assert (Hs : NoDup (map fst (calc_Copeland_scores cc))).
    { apply (Permutation_NoDup (l := dkeys (cc_winlosstie cc))); [|exact Hnd].
      rewrite (Permutation_map fst (scores_perm cc)). unfold dkeys. rewrite map_map. reflexivity. }
    clear -Hs. induction (calc_Copeland_scores cc) as [|[k s] r IH]; simpl in *; [constructor|].
    inversion Hs as [|? ? Hk Hr]; subst. destruct (s =? mx); simpl; [|auto]. constructor; [|auto].
    intro Hi. apply Hk. apply in_map_iff in Hi as [x [<- Hf]]. apply filter_In in Hf as [Hf _].
    apply in_map; exact Hf.
  - intro c. rewrite Hw. split.
    + intros [w [Hi Hmax]]. assert (Hc : In c (cands m)).
      { apply (Permutation_in _ P). change c with (fst (c, w)). apply in_map; exact Hi. }
      split; [exact Hc|]. exists (half_points w). split.
      * unfold score2. rewrite (dget_In_nodup _ _ _ Hnd Hi). reflexivity.
      * intros c' s' _ Hs'. unfold score2 in Hs'. destruct (dget c' (cc_winlosstie cc)) as [w'|] eqn:Ew; [|discriminate].
        inversion Hs'; subst. apply dget_In in Ew. apply (Hmax _ _ Ew).
    + intros [Hc [s [Hs Hmax]]]. unfold score2 in Hs. destruct (dget c (cc_winlosstie cc)) as [w|] eqn:Ew; [|discriminate].
      inversion Hs; subst; clear Hs. exists w. split; [apply dget_In; exact Ew|]. intros c' w' Hi'.
      apply (Hmax c' (half_points w')).
      * apply (Permutation_in _ P). change c' with (fst (c', w')). apply in_map; exact Hi'.
      * unfold score2. rewrite (dget_In_nodup _ _ _ Hnd Hi'). reflexivity.
Qed.
Print Assumptions C06_winners_are_argmax.

Theorem C06_scores_sorted_complete : forall m cc, tallyable m -> full_copecount m = Ok cc ->
  Permutation (map fst (calc_Copeland_scores cc)) (cands m) /\
  StronglySorted (fun x y => snd y <= snd x) (calc_Copeland_scores cc) /\
  forall c s, In (c, s) (calc_Copeland_scores cc) -> score2 cc c = Some s.
Proof.
  intros m cc H E0. pose proof (cope_nodup m cc H E0) as Hnd.
  destruct (C05_winlosstie_exact m cc H E0) as [P _].
  split; [|split].
  - rewrite (Permutation_map fst (scores_perm cc)), map_map. exact P.
  - apply sort_desc_sorted.
  - intros c s Hi. apply (Permutation_in _ (scores_perm cc)) in Hi. apply in_map_iff in Hi as [[k w] [Ek Hi]].
    inversion Ek; subst. unfold score2. simpl. rewrite (dget_In_nodup _ _ _ Hnd Hi). reflexivity.
Qed.
Print Assumptions C06_scores_sorted_complete.

Theorem C06_winners_exist : forall m cc, tallyable m -> full_copecount m = Ok cc -> cands m <> [] ->
  exists ws, get_Copeland_winners cc = Ok ws.
Proof.
  intros m cc H E0 Hne. apply winners_ok. intro E1. destruct (C05_winlosstie_exact m cc H E0) as [P _].
  rewrite E1 in P. simpl in P. apply Permutation_nil in P. contradiction.
Qed.
Print Assumptions C06_winners_exist.

Theorem C06_no_candidates : forall m cc, tallyable m -> full_copecount m = Ok cc -> cands m = [] ->
  get_Copeland_winners cc = Err ValueError.
Proof.
  intros m cc H E0 Hne. destruct (C05_winlosstie_exact m cc H E0) as [P _]. rewrite Hne in P.
  apply Permutation_sym, Permutation_nil, map_eq_nil in P.
  unfold get_Copeland_winners, calc_Copeland_scores. rewrite P. reflexivity.
Qed.
Print Assumptions C06_no_candidates.

(** The text report names one of the winners, with its score. *)
Theorem C06_report_names_a_winner : forall m cc ws txt, tallyable m -> full_copecount m = Ok cc ->
  get_Copeland_winners cc = Ok ws -> Copeland_report (j_candidates m) cc = Ok txt ->
  exists c name s, In c ws /\ dget c (j_candidates m) = Some name /\ score2 cc c = Some s /\
    txt = u "Copeland Winner: " ++ name ++ u " (score: " ++ halves_str s ++ u ")" ++ [10%N].
Proof.
  intros m cc ws txt H E0 E1 E2.
  destruct (C06_scores_sorted_complete m cc H E0) as [P [Hs Hsc]].
  destruct (C06_winners_are_argmax m cc ws H E0 E1) as [_ [_ Hw]].
  unfold Copeland_report in E2. destruct (calc_Copeland_scores cc) as [|[c s] r] eqn:Ec; [discriminate|].
  apply bind_ok in E2 as [name [En E2]]. inversion E2; subst; clear E2.
  exists c, name, s. repeat split.
  - apply Hw. assert (Hc : In c (cands m)) by (apply (Permutation_in _ P); left; reflexivity).
    split; [exact Hc|]. exists s. split; [apply Hsc; left; reflexivity|].
    intros c' s' Hc' Hs'. apply (Permutation_in _ (Permutation_sym P)) in Hc'.
    apply in_map_iff in Hc' as [[c2 s2] [Ef Hi]]. simpl in Ef; subst c2.
    assert (s2 = s') by (specialize (Hsc _ _ Hi); congruence). subst s2.
    inversion Hs as [|? ? _ Hf]; subst. rewrite Forall_forall in Hf. destruct Hi as [Hi|Hi].
    + inversion Hi; lia.
    + apply (Hf _ Hi).
  - unfold dgetE, of_option in En. destruct (dget c (j_candidates m)); congruence.
  - apply Hsc; left; reflexivity.
Qed.
Print Assumptions C06_report_names_a_winner.

Example C06_nonvacuous : exists cc, full_copecount sample = Ok cc /\
  get_Copeland_winners cc = Ok [C] /\
  Copeland_report (j_candidates sample) cc = Ok (u "Copeland Winner: Cy (score: 2.0)" ++ [10%N]).
Proof. eexists. split; [vm_compute; reflexivity|]. split; vm_compute; reflexivity. Qed.

(** ** C07, C08 *)

(** Every member of the group beats every candidate outside it. *)
Definition dominant (m : jabmod) (group : list str) : Prop :=
  incl group (cands m) /\ group <> [] /\
  forall a b, In a group -> In b (cands m) -> ~ In b group -> votes_over m b a < votes_over m a b.

Lemma score2_count m cc c : tallyable m -> full_copecount m = Ok cc -> In c (cands m) ->
  score2 cc c = Some (2 * count (fun b => negb (beats (votes_over m) b c)) (others c (cands m))).
Proof.
  intros H E0 Hc. destruct (C05_winlosstie_exact m cc H E0) as [_ [_ Hx]].
  unfold score2. rewrite (Hx c Hc). cbn [wins ties]. f_equal.
  rewrite !count_zsum, <- !zsum_map_scale, <- !zsum_map_add.
  apply zsum_map_ext. intros b _. unfold beats, ties_with, b2z.
  destruct (Z.ltb_spec (votes_over m b c) (votes_over m c b)),
    (Z.ltb_spec (votes_over m c b) (votes_over m b c)),
    (Z.eqb_spec (votes_over m b c) (votes_over m c b)); simpl; lia.
Qed.

Lemma count_impl {A} (p q : A -> bool) l : (forall x, In x l -> p x = true -> q x = true) -> count p l <= count q l.
Proof.
  intro H. rewrite !count_zsum. apply zsum_le. intros x Hx. unfold b2z.
  specialize (H x Hx). destruct (p x); [rewrite H by reflexivity; lia|destruct (q x); lia].
Qed.

Lemma count_filter {A} (p q : A -> bool) l : count p (filter q l) = count (fun x => q x && p x) l.
Proof.
  rewrite !count_zsum, zsum_filter. apply zsum_map_ext. intros x _. destruct (q x); reflexivity.
Qed.

Theorem C08_smith_criterion : forall m cc ws group, tallyable m -> full_copecount m = Ok cc ->
  get_Copeland_winners cc = Ok ws -> dominant m group ->
  forall w, In w ws -> In w group.
Proof.
  intros m cc ws g H E0 E1 [Hg [Hne Hd]] w Hw.
  destruct (C06_winners_are_argmax m cc ws H E0 E1) as [_ [_ Hx]]. apply Hx in Hw as [Hw [s [Hs Hmax]]].
  destruct (memb w g) eqn:Em; [apply memb_In; exact Em|exfalso]. apply memb_nIn in Em.
  destruct g as [|a g']; [congruence|]. assert (Ha : In a (a :: g')) by (left; reflexivity).
  set (g := a :: g') in *.
  rewrite (score2_count m cc w H E0 Hw) in Hs. apply some_inj in Hs. subst s.
  specialize (Hmax a _ (Hg a Ha) (score2_count m cc a H E0 (Hg a Ha))).
  set (out := filter (fun b => negb (memb b g)) (cands m)).
  assert (Hna : ~ In a out).
  { unfold out. rewrite filter_In. intros [_ Hm]. rewrite (proj2 (memb_In a g) Ha) in Hm. discriminate. }
  assert (Hwo : In w out).
  { unfold out. apply filter_In. split; [exact Hw|]. rewrite (proj2 (memb_nIn _ _) Em). reflexivity. }
  assert (Hno : NoDup out) by (apply NoDup_filter; apply H).
  assert (L1 : Z.of_nat (length out) <= count (fun b => negb (beats (votes_over m) b a)) (others a (cands m))).
  { replace (Z.of_nat (length out)) with (count (fun b => negb (memb b g)) (cands m)) by reflexivity.
    unfold others. rewrite count_filter.
    apply count_impl. intros b Hb Hbg. apply negb_true_iff in Hbg.
    apply memb_nIn in Hbg.
    assert (a <> b) by (intros ->; contradiction). rewrite (proj2 (str_eqb_neq _ _) H0). simpl.
    specialize (Hd a b Ha Hb Hbg). unfold beats. apply negb_true_iff. lia. }
  assert (L2 : count (fun b => negb (beats (votes_over m) b w)) (others w (cands m)) <= Z.of_nat (length (others w out))).
  { unfold others at 1. rewrite count_filter.
    replace (Z.of_nat (length (others w out))) with (count (fun b => negb (str_eqb w b)) out) by reflexivity.
    unfold out. rewrite count_filter. apply count_impl. intros b Hb Hp. apply andb_prop in Hp as [Hp1 Hp2].
    rewrite Hp1, andb_true_r. apply negb_true_iff, memb_nIn. intro Hbg.
    specialize (Hd b w Hbg Hw Em). apply negb_true_iff in Hp2. unfold beats in Hp2. lia. }
  pose proof (others_len w out Hno Hwo). lia.
Qed.
Print Assumptions C08_smith_criterion.

Theorem C07_condorcet_winner : forall m cc ws c, tallyable m -> full_copecount m = Ok cc ->
  get_Copeland_winners cc = Ok ws -> In c (cands m) ->
  (forall b, In b (cands m) -> b <> c -> votes_over m b c < votes_over m c b) ->
  ws = [c].
Proof.
  intros m cc ws c H E0 E1 Hc Hb.
  assert (Hd : dominant m [c]).
  { split; [intros x [<-|[]]; exact Hc|]. split; [discriminate|]. intros a b [<-|[]] Hbc Hn. apply Hb; [exact Hbc|].
    intros ->; apply Hn; left; reflexivity. }
  pose proof (C08_smith_criterion m cc ws [c] H E0 E1 Hd) as Hs.
  destruct (C06_winners_are_argmax m cc ws H E0 E1) as [Hne [Hnd _]].
  destruct ws as [|x [|y r]]; [congruence| |].
  - destruct (Hs x) as [->|[]]; [left; reflexivity|reflexivity].
  - exfalso. destruct (Hs x) as [<-|[]]; [left; reflexivity|]. destruct (Hs y) as [<-|[]]; [right; left; reflexivity|].
    inversion Hnd as [|? ? Hi _]; subst. apply Hi. left; reflexivity.
Qed.
Print Assumptions C07_condorcet_winner.

Theorem C07_condorcet_loser : forall m cc ws c, tallyable m -> full_copecount m = Ok cc ->
  get_Copeland_winners cc = Ok ws -> (2 <= length (cands m))%nat -> In c (cands m) ->
  (forall b, In b (cands m) -> b <> c -> votes_over m c b < votes_over m b c) ->
  ~ In c ws.
Proof.
  intros m cc ws c H E0 E1 Hl Hc Hb Hi.
  assert (Hd : dominant m (others c (cands m))).
  { split; [intros x Hx; apply filter_In in Hx; apply Hx|]. split.
    - destruct H as [Hn _]. pose proof (others_len c _ Hn Hc) as Ho. intro E2. rewrite E2 in Ho. simpl in Ho. lia.
    - intros a b Ha Hbc Hn. apply filter_In in Ha as [Ha Hac]. apply negb_true_iff, str_eqb_neq in Hac.
      assert (b = c).
      { destruct (str_eqb_spec c b) as [->|nn]; [reflexivity|]. exfalso. apply Hn. apply filter_In. split; [exact Hbc|].
        rewrite (proj2 (str_eqb_neq _ _) nn). reflexivity. }
      subst b. apply Hb; [exact Ha|congruence]. }
  pose proof (C08_smith_criterion m cc ws _ H E0 E1 Hd c Hi) as Hf.
  apply filter_In in Hf as [_ Hf]. rewrite str_eqb_refl in Hf. discriminate.
Qed.
Print Assumptions C07_condorcet_loser.

(** In [sample], C is the Condorcet winner, A the Condorcet loser, [C;B] a dominant group. *)
Example C07_nonvacuous :
  (forall b, In b (cands sample) -> b <> C -> votes_over sample b C < votes_over sample C b) /\
  (forall b, In b (cands sample) -> b <> A -> votes_over sample A b < votes_over sample b A).
Proof.
  split; intros b Hb; simpl in Hb; intuition (subst; first [congruence | vm_compute; reflexivity]).
Qed.
Example C08_nonvacuous : dominant sample [C; B].
Proof.
  split; [intros x Hx; simpl in *; intuition (subst; auto)|]. split; [discriminate|].
  intros a b Ha Hb Hn. simpl in Ha, Hb, Hn.
  destruct Hb as [<-|[<-|[<-|[]]]]; [|tauto|tauto]. destruct Ha as [<-|[<-|[]]]; vm_compute; reflexivity.
Qed.

(** ** C09: false of the code *)

(** Ballots making only "x over y" lopsided (by 2): x>y>rest and reversed rest>x>y. *)
Definition all6 := [A; B; C; D; E; F].
Fixpoint number (i : Z) (l : list str) : dict pref :=
  match l with [] => [] | x :: r => (x, ranked i) :: number (i + 1) r end.
Definition margin2 (xy : str * str) : list voteline :=
  let rest := filter (fun c => negb (str_eqb c (fst xy) || str_eqb c (snd xy))) all6 in
  [ vl 1 (number 1 (fst xy :: snd xy :: rest)); vl 1 (number 1 (rev rest ++ [fst xy; snd xy])) ].
Definition tie_matters : jabmod := Jabmod [] (map (fun c => (c, c)) all6)
  (flat_map margin2 [(A,B);(A,C);(A,D);(E,A);(F,A);(C,E);(C,F);(D,C);(D,E);(F,D);(E,F)]).

(** Textbook Copeland score, doubled. *)
Definition textbook_score2 (m : jabmod) (c : str) : Z :=
  2 * count (fun b => beats (votes_over m) c b) (others c (cands m))
  + count (fun b => ties_with (votes_over m) c b) (others c (cands m)).

(** With ties at half a point A wins alone (6 > 5 halves); the code elects B alone. *)
Theorem C09_half_point_refuted :
  tallyable tie_matters /\
  map (textbook_score2 tie_matters) all6 = [6; 4; 5; 5; 5; 5] /\
  exists cc, full_copecount tie_matters = Ok cc /\
    map (score2 cc) all6 = map Some [6; 8; 6; 6; 6; 6] /\ get_Copeland_winners cc = Ok [B].
Proof.
  split; [split; [nodup|]|split].
  - intros l Hl. assert (G : forallb (line_ranked maxsize) (j_votelines tie_matters) = true) by (vm_compute; reflexivity).
    rewrite forallb_forall in G. auto.
  - vm_compute; reflexivity.
  - eexists. split; [vm_compute; reflexivity|]. split; vm_compute; reflexivity.
Qed.
Print Assumptions C09_half_point_refuted.

(** What the code computes: a tie is worth a whole point. *)
Theorem C09_exact_score : forall m cc c, tallyable m -> full_copecount m = Ok cc -> In c (cands m) ->
  score2 cc c = Some (2 * (count (fun b => beats (votes_over m) c b) (others c (cands m))
                           + count (fun b => ties_with (votes_over m) c b) (others c (cands m)))).
Proof.
  intros m cc c H E0 Hc. destruct (C05_winlosstie_exact m cc H E0) as [_ [_ Hx]].
  unfold score2. rewrite (Hx c Hc). cbn [wins ties]. f_equal. lia.
Qed.
Print Assumptions C09_exact_score.

(** Without ties the score is the textbook one. *)
Theorem C09_half_point_without_ties : forall m cc c, tallyable m -> full_copecount m = Ok cc -> In c (cands m) ->
  (forall b, In b (cands m) -> b <> c -> votes_over m b c <> votes_over m c b) ->
  score2 cc c = Some (textbook_score2 m c).
Proof.
  intros m cc c H E0 Hc Hnt. rewrite (C09_exact_score m cc c H E0 Hc). unfold textbook_score2. f_equal.
  assert (count (fun b => ties_with (votes_over m) c b) (others c (cands m)) = 0); [|lia].
  rewrite count_zsum. apply zsum_map_0. intros b Hb. apply filter_In in Hb as [Hb Hn].
  apply negb_true_iff, str_eqb_neq in Hn. unfold ties_with, b2z.
  destruct (Z.eqb_spec (votes_over m b c) (votes_over m c b)); [|reflexivity].
  exfalso. apply (Hnt b); auto.
Qed.
Print Assumptions C09_half_point_without_ties.

Example C09_nonvacuous : forall b, In b (cands sample) -> b <> B -> votes_over sample b B <> votes_over sample B b.
Proof. intros b Hb; simpl in Hb; intuition (subst; first [congruence | vm_compute; discriminate]). Qed.

Print Assumptions C01_pairwise_exact.
Print Assumptions C01_cells.
Print Assumptions C02_pairwise_accounting.
Print Assumptions C02_pairwise_bounded.
Print Assumptions C03_line_order_irrelevant.
Print Assumptions C03_splitting_irrelevant.
Print Assumptions C04_unranked_line_erases_votes_refuted.
Print Assumptions C04_exact_behaviour.
Print Assumptions C05_winlosstie_exact.
Print Assumptions C05_copecount_total.
Print Assumptions C05_wlt_sum.
Print Assumptions C05_ties_refuted.
Print Assumptions C06_winners_are_argmax.
Print Assumptions C06_scores_sorted_complete.
Print Assumptions C06_winners_exist.
Print Assumptions C06_no_candidates.
Print Assumptions C06_report_names_a_winner.
Print Assumptions C07_condorcet_winner.
Print Assumptions C07_condorcet_loser.
Print Assumptions C08_smith_criterion.
Print Assumptions C09_half_point_refuted.
Print Assumptions C09_exact_score.
Print Assumptions C09_half_point_without_ties.
