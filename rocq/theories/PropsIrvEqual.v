(** * Property C81: what instant runoff counts when ballots give equal ranks (abiflib/irvtally.py). *)

From Verif Require Import PyBase PyFacts Jabmod PairwiseModel Spec PairwiseFacts IrvModel IrvFacts IrvStrict IrvTrace
  IrvCriteria PropsPairwise PropsIrv IrvEqual RoundtripFacts.
Local Open Scope Z_scope.

(** Every rank of the election is below 9999999999 and no candidate has the empty token. *)
Definition bounded_election (m : jabmod) : Prop :=
  forall l, In l (j_votelines m) ->
    (forall c r, rank_on l c = Some r -> r < 9999999999) /\ lists l [] = false.

Lemma bounded_election_lines m : bounded_election m -> bounded_lines (j_votelines m).
Proof.
  intros H l Hl. destruct (H l Hl) as [H1 H2]. split; [exact H1|]. intro Hi. apply lists_In in Hi. congruence.
Qed.

(** The votelines still there after the given rounds have discarded theirs. *)
Definition still_there (rounds : list irvmeta) (ls : list voteline) : list voteline :=
  fold_left (fun ls rm => kept (first_shared (im_starting_cands rm)) ls) rounds ls.

Definition total (ls : list voteline) : Z := zsum (map v_qty ls).

Lemma equal_trace o cs0 n pa cs ls w rs ms : valid_oracle o -> trace o n pa cs ls w rs ms ->
  forall gone k i rc rm, equal_state cs0 gone cs k ls -> nth_error rs i = Some rc -> nth_error ms i = Some rm ->
  let before := still_there (firstn i ms) k in
  let now := kept (first_shared (im_starting_cands rm)) before in
  map fst rc = im_starting_cands rm /\
  (forall c, In c (im_starting_cands rm) ->
     dget c rc = Some (ballots_where (fun l => counted_choice (im_starting_cands rm) l c) now)) /\
  im_exhaustedqty rm = ballots_where (no_choice (im_starting_cands rm)) now /\
  im_startingqty rm = total before /\ im_ballotcount rm = total now /\ im_overvoteqty rm = total before - total now.
Proof.
  intros Ho T. induction T as [n pa cs ls mn mx pen Hn Hne Hl R Hd|n pa cs ls mn mx pen e w rs ms Hn Hne Hl R Hd He T IH];
    intros gone k i rc rm Hst E1 E2.
  - destruct i as [|i]; [|destruct i; discriminate]. cbn [nth_error] in E1, E2. apply some_inj in E1, E2. subst rc rm.
    destruct (equal_tally _ _ _ _ _ Hst) as (Et&Ee&Eo&Es&Ep).
    cbv zeta. cbn [firstn still_there fold_left mk_meta im_starting_cands im_exhaustedqty im_startingqty im_ballotcount im_overvoteqty].
    split; [apply dkeys_dmap|]. split; [|auto]. intros c Hc. rewrite dget_dmap, (proj2 (memb_In _ _) Hc), Et. reflexivity.
  - destruct i as [|i].
    + cbn [nth_error] in E1, E2. apply some_inj in E1, E2. subst rc rm.
      destruct (equal_tally _ _ _ _ _ Hst) as (Et&Ee&Eo&Es&Ep).
      cbv zeta. cbn [firstn still_there fold_left mk_meta im_starting_cands im_exhaustedqty im_startingqty im_ballotcount im_overvoteqty].
      split; [apply dkeys_dmap|]. split; [|auto]. intros c Hc. rewrite dget_dmap, (proj2 (memb_In _ _) Hc), Et. reflexivity.
    + cbn [nth_error] in E1, E2. apply (IH (gone ++ e) (kept (first_shared cs) k) i rc rm); [|exact E1|exact E2].
      apply equal_next; [exact Hst|apply Ho].
Qed.

(** The figures of every round.  [before] are the votelines still there when round [i] begins; the round
    first discards those whose first place is shared - going through them in order and never looking at
    the line after a discarded one - and counts every other ballot for the highest candidate on it that
    has a rank of its own among the candidates of the round. *)
Theorem C81_round_counts : forall o m d i rc rm, schedule o -> irv_election m -> bounded_election m ->
  IRV_dict_from_jabmod o m = Ok d -> round d i rc rm ->
  let cs := im_starting_cands rm in
  let before := still_there (firstn i (ir_roundmeta d)) (j_votelines m) in
  let counted := kept (first_shared cs) before in
  map fst rc = cs /\
  (forall c, In c cs -> dget c rc = Some (ballots_where (fun l => counted_choice cs l c) counted)) /\
  im_exhaustedqty rm = ballots_where (no_choice cs) counted /\
  im_startingqty rm = total before /\ im_ballotcount rm = total counted /\
  im_overvoteqty rm = total before - total counted.
Proof.
  intros o m d i rc rm Ho Hm Hb E [E1 E2]. destruct (irv_run o m Ho Hm) as (d'&E'&T&_).
  rewrite E in E'. apply ok_inj in E'. subst d'.
  apply (equal_trace o (cands m) _ _ _ _ _ _ _ Ho T [] (j_votelines m) i rc rm); [|exact E1|exact E2].
  apply equal_init; [intros l Hl; apply Hm; exact Hl|apply bounded_election_lines; exact Hb].
Qed.
Print Assumptions C81_round_counts.

(** A ballot counts for one candidate at most, and for one exactly unless nobody has a rank of their own. *)
Theorem C81_one_vote_each : forall m l cs, irv_election m -> bounded_election m -> In l (j_votelines m) -> incl cs (cands m) ->
  (forall c d, counted_choice cs l c = true -> counted_choice cs l d = true -> c = d) /\
  (no_choice cs l = false <-> exists c, In c cs /\ counted_choice cs l c = true).
Proof.
  intros m l cs Hm Hb Hl Hcs. destruct Hm as (_&_&Hm). destruct (Hm l Hl) as [H1 H2].
  assert (H3 := bounded_election_lines m Hb l Hl).
  assert (Hrem : remaining (cands m) (set_minus (cands m) cs) cs).
  { intro c. rewrite set_minus_In. split; [intro H; split; [apply Hcs; exact H|tauto]|]. intros [Hc Hn].
    destruct (in_dec str_eq_dec c cs); [assumption|]. elim Hn. auto. }
  split; [intros c d; apply (counted_unique (cands m) _ cs l H1 H2 Hrem)|].
  rewrite <- (equal_no_top (cands m) _ cs l H1 H2 H3 Hrem). unfold no_top.
  rewrite (equal_top (cands m) _ cs l H1 H2 H3 Hrem). destruct (find (counted_choice cs l) cs) as [c|] eqn:Ef.
  - apply find_some in Ef as [Hc Ec]. split; [intros _; eauto|reflexivity].
  - split; [discriminate|]. intros [c [Hc Ec]]. rewrite (find_none _ _ Ef c Hc) in Ec. discriminate.
Qed.
Print Assumptions C81_one_vote_each.

(** When no discarded line comes right after another, exactly the lines whose first place is shared go. *)
Fixpoint no_two_in_a_row (bad : voteline -> bool) (ls : list voteline) : bool :=
  match ls with
  | l :: (l2 :: _) as r => negb (bad l && bad l2) && no_two_in_a_row bad r
  | _ => true
  end.

Theorem C81_discards_exactly : forall cs ls, no_two_in_a_row (first_shared cs) ls = true ->
  kept (first_shared cs) ls = filter (fun l => negb (first_shared cs l)) ls.
Proof.
  intros cs ls. generalize (first_shared cs). clear cs. intro bad.
  induction ls as [|l r IH IH2] using voteline_ind2; intro H; [reflexivity|]. cbn [kept filter].
  destruct r as [|l2 r2]; [destruct (bad l); reflexivity|].
  change (negb (bad l && bad l2) && no_two_in_a_row bad (l2 :: r2) = true) in H. apply andb_prop in H as [H1 H2].
  destruct (bad l) eqn:El; cbn [negb].
  - cbn [filter]. cbn [andb] in H1. apply negb_true_iff in H1. rewrite H1. cbn [negb]. f_equal. apply (IH2 l2 r2 eq_refl).
    destruct r2; [reflexivity|]. cbn [no_two_in_a_row] in H2. apply andb_prop in H2 as [_ H2]. exact H2.
  - f_equal. apply IH. exact H2.
Qed.
Print Assumptions C81_discards_exactly.

(** Lines without equal ranks are never discarded, and then this is the usual rule (C22). *)
Theorem C81_strict_is_usual : forall m l cs c, irv_election m -> strict_election m -> In l (j_votelines m) -> incl cs (cands m) ->
  counted_choice cs l c = top_choice cs l c /\ no_choice cs l = lists_nobody cs l /\ first_shared cs l = false.
Proof.
  intros m l cs c Hm Hs Hl Hcs. destruct Hm as (_&_&Hm). destruct (Hm l Hl) as [H1 H2]. specialize (Hs l Hl).
  assert (H3 : bounded_line l) by (destruct Hs as (_&Hb&He); split; assumption).
  assert (Hrem : remaining (cands m) (set_minus (cands m) cs) cs).
  { intro x. rewrite set_minus_In. split; [intro H; split; [apply Hcs; exact H|tauto]|]. intros [Hc Hn].
    destruct (in_dec str_eq_dec x cs); [assumption|]. elim Hn. auto. }
  split; [|split].
  - rewrite <- (equal_is_top _ _ cs l H1 H2 H3 Hrem). apply (strict_is_top _ _ cs l c H1 H2 Hs Hrem).
  - rewrite <- (equal_no_top _ _ cs l H1 H2 H3 Hrem). apply (strict_no_top _ _ cs l H1 H2 Hs Hrem).
  - pose proof (equal_overvoted _ _ cs l H1 H2 H3 Hrem) as E.
    rewrite strict_not_overvoted in E.
    + apply ok_inj in E. symmetry. exact E.
    + cbn. apply NoDup_map_fst_filter. apply H1.
    + apply has_ranks_without. exact H2.
    + apply strict_without. exact Hs.
Qed.
Print Assumptions C81_strict_is_usual.

(** ** Only quantities and preferences matter *)

Lemma own_same cs v w c : same_votes v w -> has_own_rank cs w c = has_own_rank cs v c.
Proof. intros (_&H1&H2). unfold has_own_rank. induction cs as [|d r IH]; [reflexivity|]. cbn [forallb]. rewrite IH, H1, !H2. reflexivity. Qed.
Lemma forallb_ext' {X} (p q : X -> bool) l : (forall x, p x = q x) -> forallb p l = forallb q l.
Proof. intro H. induction l as [|x r IH]; [reflexivity|]. cbn [forallb]. rewrite H, IH. reflexivity. Qed.
Lemma existsb_ext' {X} (p q : X -> bool) l : (forall x, p x = q x) -> existsb p l = existsb q l.
Proof. intro H. induction l as [|x r IH]; [reflexivity|]. cbn [existsb]. rewrite H, IH. reflexivity. Qed.
Lemma counted_same cs v w c : same_votes v w -> counted_choice cs w c = counted_choice cs v c.
Proof.
  intro H. unfold counted_choice. rewrite (own_same cs v w c H). destruct H as (Hq&H1&H2). rewrite H1. f_equal.
  apply forallb_ext'. intro d. rewrite (own_same cs v w d (conj Hq (conj H1 H2))), H1, H2. reflexivity.
Qed.
Lemma no_choice_same cs v w : same_votes v w -> no_choice cs w = no_choice cs v.
Proof.
  intro H. unfold no_choice. apply forallb_ext'. intro d. rewrite (own_same cs v w d H). destruct H as (_&H1&_). rewrite H1. reflexivity.
Qed.
Lemma first_shared_same cs v w : same_votes v w -> first_shared cs w = first_shared cs v.
Proof.
  intro H. unfold first_shared. apply existsb_ext'. intro c. rewrite (own_same cs v w c H). destruct H as (_&H1&H2). rewrite H1.
  f_equal. apply forallb_ext'. intro d. rewrite H1, H2. reflexivity.
Qed.
Lemma kept_same cs k k' : Forall2 same_votes k k' -> Forall2 same_votes (kept (first_shared cs) k) (kept (first_shared cs) k').
Proof.
  revert k'. induction k as [|v r IH IH2] using voteline_ind2; intros k' F; inversion F as [|? w ? r' Hv Fr]; subst; [constructor|].
  cbn [kept]. rewrite (first_shared_same cs v w Hv). destruct (first_shared cs v).
  - destruct r as [|v2 r2]; inversion Fr as [|? w2 ? r2' Hv2 Fr2]; subst; [constructor|]. constructor; [exact Hv2|]. apply (IH2 v2 r2 eq_refl). exact Fr2.
  - constructor; [exact Hv|]. apply IH. exact Fr.
Qed.
Lemma ballots_same p p' k k' : (forall v w, same_votes v w -> p' w = p v) -> Forall2 same_votes k k' ->
  ballots_where p' k' = ballots_where p k.
Proof.
  intros H F. unfold ballots_where. induction F as [|v w r r' Hv F IH]; [reflexivity|]. cbn [map zsum]. rewrite IH, (H v w Hv).
  destruct Hv as (->&_). reflexivity.
Qed.
Lemma total_same k k' : Forall2 same_votes k k' -> zsum (map v_qty k') = zsum (map v_qty k).
Proof. induction 1 as [|v w r r' Hv F IH]; [reflexivity|]. cbn [map zsum]. rewrite IH. destruct Hv as (->&_). reflexivity. Qed.

Lemma irv_count_same o cs0 fuel : forall n pa gone cs k k' ls ls',
  valid_oracle o -> NoDup cs -> cs <> [] -> lines_inv cs ls -> lines_inv cs ls' ->
  equal_state cs0 gone cs k ls -> equal_state cs0 gone cs k' ls' -> Forall2 same_votes k k' ->
  irv_count fuel o n pa cs ls' = irv_count fuel o n pa cs ls.
Proof.
  induction fuel as [|f IH]; intros n pa gone cs k k' ls ls' Ho Hn Hne Hl Hl' Hst Hst' F; [reflexivity|].
  destruct (equal_tally _ _ _ _ _ Hst) as (Et&Ee&Eo&Es&Ep). destruct (equal_tally _ _ _ _ _ Hst') as (Et'&Ee'&Eo'&Es'&Ep').
  assert (FK := kept_same cs k k' F).
  assert (Etc : forall c, tally ls c = tally ls' c).
  { intro c. rewrite Et, Et'. symmetry. apply ballots_same; [|exact FK]. intros v w Hv. apply counted_same; exact Hv. }
  assert (Ex : exhausted ls' = exhausted ls).
  { rewrite Ee, Ee'. apply ballots_same; [|exact FK]. intros v w Hv. apply no_choice_same; exact Hv. }
  assert (Eq : zsum (map v_qty ls') = zsum (map v_qty ls)) by (rewrite Es, Es'; apply total_same; exact F).
  assert (Eq2 : zsum (map v_qty (pruned ls')) = zsum (map v_qty (pruned ls))) by (rewrite Ep, Ep'; apply total_same; exact FK).
  assert (Eov : overvoted ls' = overvoted ls) by (rewrite Eo, Eo', (total_same _ _ F), (total_same _ _ FK); reflexivity).
  cbn [irv_count].
  destruct (irv_round_ok cs ls Hn Hne Hl) as (mn&mx&pen&Er&Hmn&Hmx&Hp).
  destruct (irv_round_ok cs ls' Hn Hne Hl') as (mn'&mx'&pen'&Er'&Hmn'&Hmx'&Hp').
  assert (R : round_numbers cs ls mn mx pen) by (constructor; assumption).
  destruct (numbers_unique cs cs ls ls' mn mx pen mn' mx' pen' (fun c => iff_refl _) Etc R) as (<-&<-&<-); [constructor; assumption|].
  rewrite Er, Er'. cbn [bind].
  assert (Ed : dmap cs (tally ls) = dmap cs (tally ls')) by (apply dmap_ext; intros c _; apply Etc).
  assert (Ez : zsum (map (tally ls) cs) = zsum (map (tally ls') cs)) by (apply zsum_map_ext; intros c _; apply Etc).
  assert (Eed : elim_decision o n (ri_of cs ls mn mx pen) = elim_decision o n (ri_of cs ls' mn mx pen))
    by (apply elim_decision_ext; [exact Ed|reflexivity|reflexivity]).
  assert (Emc : max_cands (ri_of cs ls mn mx pen) = max_cands (ri_of cs ls' mn mx pen))
    by (unfold max_cands; cbn [ri_of ri_roundcount ri_max]; rewrite Ed; reflexivity).
  destruct (elim_facts o n cs ls mn mx pen _ Hn R eq_refl) as (He1&He2&He3&He4&He5).
  rewrite <- Eed, <- Emc.
  set (ed := elim_decision o n (ri_of cs ls mn mx pen)) in *. set (mc := max_cands (ri_of cs ls mn mx pen)). clearbody ed mc.
  cbn [ri_of ri_min ri_max ri_total ri_exhausted ri_overvotes ri_ballotcount ri_penult ri_pruned ri_roundcount].
  rewrite <- Ed, <- Ez, Ex, Eov, Eq, Eq2.
  destruct (Z.eqb_spec mn mx) as [Heq|Hneq]; [reflexivity|].
  destruct (2 * mx >? zsum (map (tally ls) cs)); [reflexivity|].
  destruct (discard_eq ls) as [_ [Hi _]]; [intros l Hll; apply Hl; exact Hll|].
  destruct (discard_eq ls') as [_ [Hi' _]]; [intros l Hll; apply Hl'; exact Hll|].
  assert (HP : lines_inv cs (pruned ls)) by (intros l Hll; apply Hl, Hi, Hll).
  assert (HP' : lines_inv cs (pruned ls')) by (intros l Hll; apply Hl', Hi', Hll).
  rewrite (eliminate_eq _ (pruned ls)) by (intros l Hll; apply HP; exact Hll).
  rewrite (eliminate_eq _ (pruned ls')) by (intros l Hll; apply HP'; exact Hll).
  assert (Hsub : forall c, In c (set_minus cs (ed_eliminated ed)) -> In c (o_order o n (set_minus cs (ed_eliminated ed))))
    by (intros c Hc; apply (Permutation_in _ (Permutation_sym (Ho _ _))); exact Hc).
  rewrite (IH (S n) (Some (all_elim pa ed)) (gone ++ ed_eliminated ed) (o_order o n (set_minus cs (ed_eliminated ed)))
              (kept (first_shared cs) k) (kept (first_shared cs) k')
              (map (without (ed_eliminated ed)) (pruned ls)) (map (without (ed_eliminated ed)) (pruned ls'))); [reflexivity|exact Ho| | | | | | |exact FK].
  - apply (Permutation_NoDup (Permutation_sym (Ho _ _))). apply NoDup_filter; exact Hn.
  - destruct (He5 Hneq) as [c [Hc [Hce _]]]. intro E0.
    assert (Hin : In c (o_order o n (set_minus cs (ed_eliminated ed)))) by (apply Hsub, set_minus_In; auto).
    rewrite E0 in Hin. destruct Hin.
  - apply (next_lines_inv cs); assumption.
  - apply (next_lines_inv cs); assumption.
  - apply equal_next; [exact Hst|apply Ho].
  - apply equal_next; [exact Hst'|apply Ho].
Qed.

(** Two elections with the same candidate table whose votelines, taken in order, have the same numbers
    of ballots and order the candidates the same way have the same result, down to the last figure of
    every round - whatever rank numbers, ratings or other fields the votelines carry. *)
Theorem C81_same_ballots : forall o m m', schedule o -> irv_election m -> irv_election m' ->
  bounded_election m -> bounded_election m' -> j_candidates m' = j_candidates m ->
  Forall2 (fun v w => v_qty w = v_qty v /\ (forall c, lists w c = lists v c) /\
                      forall a b, prefers w a b = prefers v a b) (j_votelines m) (j_votelines m') ->
  IRV_dict_from_jabmod o m' = IRV_dict_from_jabmod o m.
Proof.
  intros o m m' Ho (Hn&Hne&Hl) (_&_&Hl') Hb Hb' Ec F. unfold IRV_dict_from_jabmod. rewrite Ec.
  unfold cands in Hl'. rewrite Ec in Hl'. change (dkeys (j_candidates m)) with (cands m) in *.
  rewrite (irv_count_same o (cands m) _ 1 None [] (cands m) (j_votelines m) (j_votelines m') (j_votelines m) (j_votelines m')
             Ho Hn Hne Hl Hl'); [reflexivity| | |exact F].
  - apply equal_init; [exact Hl|apply bounded_election_lines; exact Hb].
  - apply equal_init; [exact Hl'|apply bounded_election_lines; exact Hb'].
Qed.
Print Assumptions C81_same_ballots.

(** ** Samples *)
Definition eq_sample : jabmod := Jabmod [] [(A, u "a"); (B, u "b"); (C, u "c"); (D, u "d")]
  [ vl 5 [(A, ranked 1); (B, ranked 1); (C, ranked 2)];
    vl 4 [(C, ranked 1); (A, ranked 2); (B, ranked 2); (D, ranked 3)];
    vl 3 [(A, ranked 7); (B, ranked 9); (D, ranked 9)];
    vl 3 [(B, ranked 1); (D, ranked 2)];
    vl 2 [(D, ranked 1); (A, ranked 2); (B, ranked 2)] ].
Ltac bounded := intros l Hl; simpl in Hl; repeat (destruct Hl as [<-|Hl]); try (destruct Hl);
  (split; [intros c r H; unfold rank_on in H; cbn [v_prefs vl over dget] in H;
           repeat (match type of H with context [str_eqb c ?k] => destruct (str_eqb c k) end;
                   [cbn in H; injection H as <-; reflexivity|]); discriminate
          |reflexivity]).
Example eq_sample_ok : irv_election eq_sample /\ bounded_election eq_sample.
Proof. split; [irv_elec|bounded]. Qed.
(** Round 1 discards the 5 ballots with A and B level in first place; D goes, and then the 2 ballots
    "D > A = B" have a shared first place and go too; in the third round the 3 ballots "A > B = D" have
    B to themselves, for A and D are out. *)
Example eq_sample_runs : exists d, IRV_dict_from_jabmod o0 eq_sample = Ok d /\
  map im_overvoteqty (ir_roundmeta d) = [5; 2; 0] /\ map im_exhaustedqty (ir_roundmeta d) = [0; 0; 0] /\
  ir_rounds d = [[(A, 3); (B, 3); (C, 4); (D, 2)]; [(A, 3); (B, 3); (C, 4)]; [(B, 6); (C, 4)]] /\ ir_winner d = [B].
Proof. eexists. split; [vm_compute; reflexivity|]. repeat split. Qed.

(** The same ballots written with other rank numbers: the hypotheses of C81_same_ballots hold. *)
Definition eq_sample' : jabmod := Jabmod [] [(A, u "a"); (B, u "b"); (C, u "c"); (D, u "d")]
  [ vl 5 [(C, ranked 12); (A, ranked 4); (B, ranked 4)];
    vl 4 [(C, ranked 1); (A, ranked 20); (B, ranked 20); (D, ranked 30)];
    vl 3 [(A, ranked 1); (B, ranked 2); (D, ranked 2)];
    vl 3 [(B, ranked 1); (D, ranked 2)];
    vl 2 [(D, ranked 1); (A, ranked 2); (B, ranked 2)] ].
Ltac split_on x := repeat (match goal with |- context [str_eqb x ?k] => destruct (str_eqb_spec x k) end).
Example C81_same_ballots_nonvacuous :
  irv_election eq_sample' /\ bounded_election eq_sample' /\ j_candidates eq_sample' = j_candidates eq_sample /\
  Forall2 same_votes (j_votelines eq_sample) (j_votelines eq_sample').
Proof.
  split; [irv_elec|]. split; [bounded|]. split; [reflexivity|]. unfold eq_sample, eq_sample'. cbn [j_votelines].
  repeat (apply Forall2_cons; [split; [reflexivity|]; split;
    [intro x; unfold lists; cbn [v_prefs vl dget]; split_on x; reflexivity
    |intros x y; unfold prefers, rank_on; cbn [v_prefs vl dget];
     split_on x; split_on y; subst; try reflexivity; try discriminate]|]).
  apply Forall2_nil.
Qed.

(** A ballot that follows a discarded one is counted for a lower choice although its first place is
    shared: the second line here counts for C. *)
Example C81_unseen_line : exists d rc rm, IRV_dict_from_jabmod o0 over_sample = Ok d /\ irv_election over_sample /\ bounded_election over_sample /\
  round d 0 rc rm /\ map (first_shared [A; B; C]) (j_votelines over_sample) = [true; true; false] /\
  rc = [(A, 3); (B, 0); (C, 4)] /\ im_overvoteqty rm = 5.
Proof.
  do 3 eexists. split; [vm_compute; reflexivity|]. split; [irv_elec|]. split; [bounded|].
  split; [split; reflexivity|]. repeat split.
Qed.
