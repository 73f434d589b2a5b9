(** * PropsLimits: C95, what floats and the limit on nested calls do to an IRV count *)

From Coq Require Import Lia Permutation.
From Verif Require Import PyBase PyFacts Jabmod PairwiseModel Spec PairwiseFacts IrvModel IrvFacts IrvStrict IrvTrace IrvCriteria IrvMonotone PropsPairwise PropsIrv PropsClones LimitsModel.
Local Open Scope Z_scope.

Lemma round53_small n : Z.abs n < 2 ^ 53 -> round53 n = n.
Proof. intro H. unfold round53. rewrite (proj2 (Z.ltb_lt _ _) H). reflexivity. Qed.
Lemma float_majority_small mx t : 0 <= t < 2 ^ 53 -> float_majority mx t = Ok (2 * mx >? t).
Proof.
  intro H. unfold float_majority. rewrite round53_small by lia. destruct (Z.leb_spec (2 ^ 1025) (Z.abs t)) as [L|L]; [exfalso|reflexivity].
  assert (2 ^ 53 < 2 ^ 1025) by (apply Z.pow_lt_mono_r; lia). lia.
Qed.

Lemma discard_nonneg ls : nonneg_lines ls -> forall ov k, discard_overvotes ls = Ok (ov, k) -> 0 <= ov.
Proof.
  induction ls as [|l r IH IH2] using voteline_ind2; intros H ov k E; cbn [discard_overvotes] in E.
  - injection E as <- <-. lia.
  - destruct (top_overvoted l) as [b|x]; [|discriminate]. cbn [bind] in E. destruct b.
    + destruct r as [|l2 r2].
      * injection E as <- <-. apply H. left. reflexivity.
      * destruct (discard_overvotes r2) as [[ov' k']|x] eqn:E2; [|discriminate]. cbn [bind] in E. injection E as <- <-.
        assert (0 <= ov') by (apply (IH2 l2 r2 eq_refl) with k'; [intros l' Hl'; apply H; right; right; exact Hl'|exact E2]).
        specialize (H l (or_introl eq_refl)). lia.
    + destruct (discard_overvotes r) as [[ov' k']|x] eqn:E2; [|discriminate]. cbn [bind] in E. injection E as <- <-.
      apply IH with k'; [intros l' Hl'; apply H; right; exact Hl'|reflexivity].
Qed.

(** The count with limits, as long as no total reaches 2^53 *)
Lemma limited_trace o n pa cs ls w rs ms : valid_oracle o -> trace o n pa cs ls w rs ms -> nonneg_lines ls -> zsum (map v_qty ls) < 2 ^ 53 ->
  forall depth, irv_count_limited depth o n pa cs ls = if (length rs <=? depth)%nat then Ok (w, rs, ms) else Err RecursionError.
Proof.
  intros Ho T. induction T as [n pa cs ls mn mx pen Hn Hne Hl R Hd|n pa cs ls mn mx pen e w rs ms Hn Hne Hl R Hd He T IH]; intros Hq Ht depth;
    (destruct depth as [|f]; [reflexivity|]); cbn [irv_count_limited];
    destruct (irv_round_ok cs ls Hn Hne Hl) as (mn'&mx'&pen'&Er&Hmn&Hmx&Hp);
    destruct (numbers_unique cs cs ls ls _ _ _ _ _ _ (fun c => iff_refl _) (fun c => eq_refl) R (Build_round_numbers _ _ _ _ _ Hmn Hmx Hp)) as (<-&<-&<-);
    rewrite Er; cbn [bind]; rewrite max_cands_eq; cbn [ri_of ri_min ri_max ri_total ri_exhausted ri_overvotes ri_ballotcount ri_penult ri_pruned ri_roundcount];
    fold (ri_of cs ls mn mx pen);
    (destruct (discard_eq ls) as (Ed & Hi & Hs); [intros l' Hl'; apply Hl; exact Hl'|]);
    assert (Hqp : nonneg_lines (pruned ls)) by (intros l Hll; apply Hq, Hi, Hll);
    pose proof (discard_nonneg ls Hq _ _ Ed) as Hov;
    pose proof (tally_split cs ls Hn Hl) as Hts;
    pose proof (ballots_where_nonneg no_top (pruned ls) Hqp) as Hex; change (ballots_where no_top (pruned ls)) with (exhausted ls) in Hex;
    assert (Htn : 0 <= zsum (map (tally ls) cs)) by (apply zsum_nonneg; intros x Hx; apply in_map_iff in Hx as [c [<- _]]; apply ballots_where_nonneg; exact Hqp);
    rewrite float_majority_small by lia; cbn [bind].
  - destruct (Z.eqb_spec mn mx) as [|N]; [reflexivity|]. destruct (Z.gtb_spec (2 * mx) (zsum (map (tally ls) cs))) as [L|L]; [reflexivity|].
    destruct Hd as [Hd|Hd]; [contradiction|lia].
  - destruct (Z.eqb_spec mn mx) as [->|N]; [exfalso; apply Hd; left; reflexivity|].
    destruct (Z.gtb_spec (2 * mx) (zsum (map (tally ls) cs))) as [L|L]; [exfalso; apply Hd; right; lia|].
    rewrite <- He. rewrite eliminate_eq by (intros l Hll; apply Hl, Hi, Hll).
    rewrite IH.
    + cbn [length]. change (S (length rs) <=? S f)%nat with (length rs <=? f)%nat. destruct (length rs <=? f)%nat; reflexivity.
    + intros l Hll. apply in_map_iff in Hll as [l0 [<- Hl0]]. exact (Hqp l0 Hl0).
    + rewrite without_qty. lia.
Qed.

(** An election whose total fits 53 bits is counted as with exact numbers and unlimited nesting, provided the limit allows for one call per round; otherwise the count
    raises RecursionError. *)
Theorem C95_limited : forall o m d depth, schedule o -> irv_election m -> counts_ok m -> total_ballots m < 2 ^ 53 ->
  IRV_dict_from_jabmod o m = Ok d ->
  IRV_dict_limited depth o m = if (length (ir_rounds d) <=? depth)%nat then Ok d else Err RecursionError.
Proof.
  intros o m d depth Ho Hm Hq Ht E. destruct (irv_run o m Ho Hm) as (d' & E' & T & _). rewrite E in E'. apply ok_inj in E'. subst d'.
  destruct Hm as (Hn & Hne & Hl).
  pose proof (limited_trace o 1 None _ _ _ _ _ Ho T Hq Ht depth) as L. unfold IRV_dict_limited. change (dkeys (j_candidates m)) with (cands m).
  pose proof (trace_rounds_bound _ _ _ _ _ _ _ _ Ho T) as Hb.
  pose proof (limited_trace o 1 None _ _ _ _ _ Ho T Hq Ht (S (length (cands m)))) as L2.
  unfold IRV_dict_from_jabmod in E. change (dkeys (j_candidates m)) with (cands m) in E.
  destruct (irv_trace o (S (length (cands m))) 1 None (cands m) (j_votelines m) Ho Hn Hne) as (w&rs&ms&Ec&Tc);
    [intros l Hll; apply Hl; exact Hll|lia|].
  pose proof (limited_trace o 1 None _ _ _ _ _ Ho Tc Hq Ht depth) as Lc. rewrite Ec in E. cbn [bind] in E.
  assert (Er : rs = ir_rounds d).
  { destruct (if (1 <? length w)%nat then _ else _) as [ws|x]; [|discriminate]. cbn [bind] in E. apply ok_inj in E. subst d. reflexivity. }
  rewrite Lc, <- Er. destruct (length rs <=? depth)%nat; cbn [bind]; [exact E|reflexivity].
Qed.
Print Assumptions C95_limited.

(** Any limit on nesting is too small for some election: n candidates, each with his own number of ballots that list only him, all numbers close to each other *)
Definition ladder_name (i : nat) : str := repeat 65%N (S i).
Definition ladder_names (n : nat) : list str := map ladder_name (seq 0 n).
Definition ladder_votes (n : nat) (c : str) : Z := 2 * Z.of_nat n + Z.of_nat (length c).
Definition ladder (n : nat) : jabmod :=
  Jabmod [] (map (fun c => (c, c)) (ladder_names n)) (map (fun c => vl (ladder_votes n c) [(c, Pref (Some 1) None None)]) (ladder_names n)).

Lemma ladder_cands n : cands (ladder n) = ladder_names n.
Proof. unfold cands, ladder. cbn [j_candidates]. rewrite map_map. cbn [fst]. apply map_id. Qed.
Lemma ladder_length i : length (ladder_name i) = S i.
Proof. apply repeat_length. Qed.
Lemma ladder_inj n c d : In c (ladder_names n) -> In d (ladder_names n) -> length c = length d -> c = d.
Proof.
  intros Hc Hd. apply in_map_iff in Hc as [i [<- _]]. apply in_map_iff in Hd as [j [<- _]]. rewrite !ladder_length. intro H. injection H as ->. reflexivity.
Qed.
Lemma ladder_range n c : In c (ladder_names n) -> (1 <= length c <= n)%nat.
Proof. intro H. apply in_map_iff in H as [i [<- Hi]]. rewrite ladder_length. apply in_seq in Hi. lia. Qed.
Lemma ladder_nodup n : NoDup (ladder_names n).
Proof.
  unfold ladder_names. apply FinFun.Injective_map_NoDup; [|apply seq_NoDup]. intros i j H. apply (f_equal (@length N)) in H. rewrite !ladder_length in H. lia.
Qed.
Lemma ladder_irv n : (0 < n)%nat -> irv_election (ladder n).
Proof.
  intro Hp. unfold irv_election. rewrite ladder_cands. split; [apply ladder_nodup|]. split; [destruct n; [lia|discriminate]|].
  intros l Hl. unfold ladder in Hl. cbn [j_votelines] in Hl. apply in_map_iff in Hl as [c [<- Hc]]. split; [split|].
  - cbn. constructor; [intros []|constructor].
  - intros d [<-|[]]. exact Hc.
  - intros d p [E|[]]. injection E as <- <-. discriminate.
Qed.
Lemma bullet_rank q c d : rank_on (vl q [(c, Pref (Some 1) None None)]) d = if str_eqb d c then Some 1 else None.
Proof. unfold rank_on, vl. cbn [v_prefs dget]. destruct (str_eqb_spec d c); reflexivity. Qed.
Lemma bullet_lists q c d : lists (vl q [(c, Pref (Some 1) None None)]) d = str_eqb d c.
Proof. unfold lists, vl. cbn [v_prefs dget]. destruct (str_eqb_spec d c); reflexivity. Qed.
Lemma ladder_strict n : strict_election (ladder n).
Proof.
  intros l Hl. unfold ladder in Hl. cbn [j_votelines] in Hl. apply in_map_iff in Hl as [c [<- Hc]]. split; [|split].
  - intros x y r. rewrite !bullet_rank. destruct (str_eqb_spec x c); [|discriminate]. destruct (str_eqb_spec y c); [congruence|discriminate].
  - intros x r. rewrite bullet_rank. destruct (str_eqb_spec x c); [|discriminate]. intro H. injection H as <-. lia.
  - intros [E|[]]. cbn in E. apply ladder_range in Hc. rewrite E in Hc. cbn in Hc. lia.
Qed.
Lemma ladder_counts n : counts_ok (ladder n).
Proof. intros l Hl. unfold ladder in Hl. cbn [j_votelines] in Hl. apply in_map_iff in Hl as [c [<- Hc]]. cbn. unfold ladder_votes. lia. Qed.
Lemma zsum_bound (f : str -> Z) lo hi l : (forall c, In c l -> lo <= f c <= hi) -> lo * Z.of_nat (length l) <= zsum (map f l) <= hi * Z.of_nat (length l).
Proof.
  induction l as [|x r IH]; intro H; [cbn; lia|]. specialize (IH (fun c Hc => H c (or_intror Hc))). specialize (H x (or_introl eq_refl)). cbn [length map zsum]. rewrite Nat2Z.inj_succ. nia.
Qed.
Lemma ladder_total n : total_ballots (ladder n) <= 3 * Z.of_nat n * Z.of_nat n.
Proof.
  unfold total_ballots, ladder. cbn [j_votelines]. rewrite map_map. cbn [vl v_qty].
  pose proof (zsum_bound (ladder_votes n) 0 (3 * Z.of_nat n) (ladder_names n)) as B. assert (El : length (ladder_names n) = n) by (unfold ladder_names; rewrite map_length; apply seq_length). rewrite El in B.
  apply B. intros c Hc. apply ladder_range in Hc. unfold ladder_votes. lia.
Qed.

Lemma ladder_trace n o k pa cs ls w rs ms : valid_oracle o -> trace o k pa cs ls w rs ms -> (exists gone, strict_state (cands (ladder n)) (j_votelines (ladder n)) gone cs ls) ->
  (length cs <= S (length rs))%nat.
Proof.
  intros Ho T. induction T as [k pa cs ls mn mx pen Hn Hne Hl R Hd|k pa cs ls mn mx pen e w rs ms Hn Hne Hl R Hd He T IH]; intros [gone Hs];
    destruct (strict_tally _ _ _ _ _ Hs Hl) as (_ & _ & Ht & _);
    pose proof (proj1 (proj2 (proj2 Hs))) as Hrem; rewrite ladder_cands in Hrem;
    (assert (Hin : forall c, In c cs -> In c (ladder_names n)) by (intros c Hc; apply Hrem; exact Hc));
    (assert (Hv : forall c, In c cs -> tally ls c = ladder_votes n c);
      [intros c Hc; rewrite Ht; unfold ballots_where, ladder; cbn [j_votelines]; rewrite map_map; cbn [vl v_qty];
       transitivity (zsum (map (fun a => if str_eqb c a then ladder_votes n a else 0) (ladder_names n)));
       [apply zsum_map_ext; intros a Ha; unfold top_choice; fold (vl (ladder_votes n a) [(a, Pref (Some 1) None None)]); rewrite bullet_lists, (proj2 (memb_In _ _) Hc); cbn [andb];
        destruct (str_eqb_spec c a) as [ <- |Nca]; cbn [andb]; [|reflexivity];
        rewrite (proj2 (forallb_forall _ _)); [reflexivity|];
        intros d Hd'; unfold prefers; rewrite !bullet_rank, str_eqb_refl; destruct (str_eqb_spec c d) as [ <- |N]; [reflexivity|];
        destruct (str_eqb_spec d c) as [E|_]; [exfalso; apply N; symmetry; exact E|reflexivity]
       |apply zsum_single; [apply ladder_nodup|apply Hin; exact Hc]]|]).
  - destruct cs as [|x [|y [|z r]]]; cbn [length]; try lia. exfalso.
    destruct (rn_max _ _ _ _ _ R) as [[a [Ha Ea]] _]. rewrite (Hv a Ha) in Ea. pose proof (ladder_range n a (Hin a Ha)) as La.
    destruct Hd as [Hd|Hd].
    + destruct (rn_min _ _ _ _ _ R) as [_ Lo]. destruct (rn_max _ _ _ _ _ R) as [_ Hi].
      assert (Ix : In x (x :: y :: z :: r)) by (left; reflexivity). assert (Iy : In y (x :: y :: z :: r)) by (right; left; reflexivity).
      pose proof (Lo x Ix). pose proof (Hi x Ix). pose proof (Lo y Iy). pose proof (Hi y Iy). assert (Exy : tally ls x = tally ls y) by lia.
      rewrite (Hv x Ix), (Hv y Iy) in Exy. unfold ladder_votes in Exy.
      assert (x = y) by (apply (ladder_inj n); [apply Hin; exact Ix|apply Hin; exact Iy|lia]). subst y. inversion Hn as [|? ? Hx _]. apply Hx. left. reflexivity.
    + rewrite (zsum_map_ext _ (ladder_votes n)) in Hd by exact Hv.
      pose proof (zsum_bound (ladder_votes n) (2 * Z.of_nat n + 1) (3 * Z.of_nat n) (x :: y :: z :: r)) as B.
      assert (B' : (2 * Z.of_nat n + 1) * Z.of_nat (length (x :: y :: z :: r)) <= zsum (map (ladder_votes n) (x :: y :: z :: r))).
      { apply B. intros c Hc. pose proof (ladder_range n c (Hin c Hc)). unfold ladder_votes. lia. }
      cbn [length] in B'. rewrite !Nat2Z.inj_succ in B'. unfold ladder_votes in Ea. nia.
  - destruct (elim_facts o k cs ls mn mx pen e Hn R He) as (He1&He2&He3&He4&He5).
    assert (Hone : exists c, e = [c]).
    { destruct e as [|x [|y r]]; [congruence|eauto|]. exfalso. pose proof (He4 x (or_introl eq_refl)) as E1. pose proof (He4 y (or_intror (or_introl eq_refl))) as E2.
      pose proof (He3 x (or_introl eq_refl)) as I1. pose proof (He3 y (or_intror (or_introl eq_refl))) as I2.
      rewrite (Hv x I1) in E1. rewrite (Hv y I2) in E2. unfold ladder_votes in E1, E2. assert (x = y) by (apply (ladder_inj n); [apply Hin; exact I1|apply Hin; exact I2|lia]). subst y.
      inversion He2 as [|? ? Hx _]. apply Hx. left. reflexivity. }
    destruct Hone as [c Ec]. rewrite Ec in *.
    assert (Hstep : exists gone', strict_state (cands (ladder n)) (j_votelines (ladder n)) gone' (o_order o k (set_minus cs [c])) (map (without [c]) (pruned ls))).
    { exists (gone ++ [c]). apply (strict_next _ _ gone cs ls); [exact Hs|exact Hl|apply Ho]. }
    specialize (IH Hstep). rewrite (Permutation_length (Ho k _)) in IH.
    assert (Hlen : (length cs <= S (length (set_minus cs [c])))%nat).
    { apply (NoDup_incl_length (l' := c :: set_minus cs [c])) in Hn; [exact Hn|]. intros x Hx. destruct (str_eqb_spec x c) as [ -> |N]; [left; reflexivity|right].
      apply set_minus_In. split; [exact Hx|]. intros [E|[]]. apply N. symmetry. exact E. }
    cbn [length]. lia.
Qed.

(** Every limit up to 2^24 nested calls (Python's own is 1000) makes some election with strict rankings and at most 3 * (limit + 3)^2 ballots fail, with every order of
    sets and every random choice; with unlimited nesting all of these elections have a result. *)
Theorem C95_depth_refuted : forall depth, (Z.of_nat depth <= 2 ^ 24) -> exists m,
  irv_election m /\ strict_election m /\ counts_ok m /\ length (cands m) = (depth + 3)%nat /\ total_ballots m <= 3 * Z.of_nat (depth + 3) * Z.of_nat (depth + 3) /\
  forall o, schedule o -> IRV_dict_limited depth o m = Err RecursionError /\ exists d, IRV_dict_from_jabmod o m = Ok d /\ (depth < length (ir_rounds d))%nat.
Proof.
  intros depth Hd. exists (ladder (depth + 3)). assert (Hi : irv_election (ladder (depth + 3))) by (apply ladder_irv; lia).
  split; [exact Hi|]. split; [apply ladder_strict|]. split; [apply ladder_counts|].
  split; [rewrite ladder_cands; unfold ladder_names; rewrite map_length; apply seq_length|]. split; [apply ladder_total|].
  intros o Ho. destruct (irv_run o _ Ho Hi) as (d & E & T & _).
  assert (Hlen : (length (cands (ladder (depth + 3))) <= S (length (ir_rounds d)))%nat).
  { apply (ladder_trace (depth + 3) o _ _ _ _ _ _ _ Ho T). exists []. apply strict_init; [intros l Hl; apply Hi; exact Hl|apply ladder_strict]. }
  rewrite ladder_cands in Hlen. unfold ladder_names in Hlen. rewrite map_length, seq_length in Hlen.
  rewrite (C95_limited o _ d depth Ho Hi (ladder_counts _)); [|pose proof (ladder_total (depth + 3)); rewrite Nat2Z.inj_add in *; nia|exact E].
  rewrite (proj2 (Nat.leb_gt _ _)) by lia. split; [reflexivity|]. exists d. split; [exact E|lia].
Qed.
Print Assumptions C95_depth_refuted.

(** With 2^54 + 2 ballots the float of half of them is below half of them: Ann, who has exactly half of the ballots, is declared the winner, although the exact rule goes
    on to a second round and finds Ann and Bob tied. *)
Definition half_vote : jabmod := Jabmod [] [(A, u "Ann"); (B, u "Bob"); (C, u "Cy")]
  [ vl (2 ^ 53 + 1) [(A, ranked 1)]; vl (2 ^ 53) [(B, ranked 1)]; vl 1 [(C, ranked 1); (B, ranked 2)] ].
Theorem C95_float_refuted : irv_election half_vote /\ strict_election half_vote /\ counts_ok half_vote /\ total_ballots half_vote = 2 ^ 54 + 2 /\
  (exists d, IRV_dict_limited 100 o0 half_vote = Ok d /\ ir_winner d = [A] /\ length (ir_rounds d) = 1%nat) /\
  (exists d, IRV_dict_from_jabmod o0 half_vote = Ok d /\ ir_winner d = [A; B] /\ length (ir_rounds d) = 2%nat).
Proof.
  split; [unfold half_vote; irv_elec|]. split; [unfold half_vote; strict_elec|]. split; [intros l Hl; simpl in Hl; destruct Hl as [<-|[<-|[<-|[]]]]; cbn; lia|]. split; [reflexivity|].
  split; eexists; (split; [vm_compute; reflexivity|split; reflexivity]).
Qed.
Print Assumptions C95_float_refuted.

(** One ballot fewer than 2^53, three rounds: counted when the limit allows for three calls, not when it allows for two *)
Definition full_vote : jabmod := Jabmod [] [(A, u "Ann"); (B, u "Bob"); (C, u "Cy"); (D, u "Di")]
  [ vl (2 ^ 51 + 5) [(A, ranked 1)]; vl (2 ^ 51 + 2) [(B, ranked 1)]; vl (2 ^ 51 + 1) [(C, ranked 1); (B, ranked 2)]; vl (2 ^ 51 - 9) [(D, ranked 1); (A, ranked 2)] ].
Theorem C95_nonvacuous : irv_election full_vote /\ counts_ok full_vote /\ total_ballots full_vote = 2 ^ 53 - 1 /\
  (exists d, IRV_dict_from_jabmod o0 full_vote = Ok d /\ length (ir_rounds d) = 3%nat /\ IRV_dict_limited 3 o0 full_vote = Ok d /\ IRV_dict_limited 2 o0 full_vote = Err RecursionError).
Proof.
  split; [unfold full_vote; irv_elec|]. split; [intros l Hl; simpl in Hl; destruct Hl as [<-|[<-|[<-|[<-|[]]]]]; cbn; lia|]. split; [reflexivity|].
  eexists; (split; [vm_compute; reflexivity|split; [reflexivity|split; vm_compute; reflexivity]]).
Qed.
Print Assumptions C95_nonvacuous.
