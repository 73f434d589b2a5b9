(** * Properties C16-C27: instant-runoff voting (abiflib/irvtally.py) *)

From Verif Require Import PyBase PyFacts Jabmod PairwiseModel Spec PairwiseFacts IrvModel IrvFacts IrvStrict IrvTrace IrvCriteria PropsPairwise.
Local Open Scope Z_scope.

(** An election IRV is meant for: at least one candidate, no duplicate keys, every voteline lists only
    known candidates and gives each of them a rank.  Ranks may be equal, missing numbers, anything. *)
Definition irv_election (m : jabmod) : Prop :=
  NoDup (cands m) /\ cands m <> [] /\
  forall l, In l (j_votelines m) -> line_ok (cands m) l /\ forall c p, In (c, p) (v_prefs l) -> p_rank p <> None.

(** The oracle's set order is really a reordering; random.choice is arbitrary. *)
Definition schedule (o : oracle) : Prop := forall n l, Permutation (o_order o n l) l.

Definition counts_ok (m : jabmod) : Prop := forall l, In l (j_votelines m) -> 0 <= v_qty l.

(** The result reports the counts [rc] and the metadata [rm] for round [i] (counting from 0). *)
Definition round (d : irvdict) (i : nat) (rc : dict Z) (rm : irvmeta) : Prop :=
  nth_error (ir_rounds d) i = Some rc /\ nth_error (ir_roundmeta d) i = Some rm.
Definition final (d : irvdict) (i : nat) : Prop := S i = length (ir_rounds d).

Lemma irv_run o m : schedule o -> irv_election m ->
  exists d, IRV_dict_from_jabmod o m = Ok d /\
    trace o 1 None (cands m) (j_votelines m) (ir_winner d) (ir_rounds d) (ir_roundmeta d) /\
    ir_canddict d = j_candidates m.
Proof.
  intros Ho (Hn&Hne&Hl). unfold IRV_dict_from_jabmod.
  change (dkeys (j_candidates m)) with (cands m).
  destruct (irv_trace o (S (length (cands m))) 1 None (cands m) (j_votelines m) Ho Hn Hne) as (w&rs&ms&E&T);
    [intros l Hll; apply Hl; exact Hll|lia|].
  rewrite E. cbn [bind]. destruct (trace_winner _ _ _ _ _ _ _ _ Ho T) as (Hw1&Hw2&Hw3).
  assert (Hg : forall c, In c w -> exists nm, dgetE c (j_candidates m) = Ok nm).
  { intros c Hc. apply Hw3 in Hc. unfold cands in Hc. apply dget_Some_In in Hc as [v Hv]. unfold dgetE, of_option. rewrite Hv. eauto. }
  destruct (Nat.ltb_spec 1 (length w)) as [Hlw|Hlw].
  - assert (Hm : exists names, mapM (fun w => dgetE w (j_candidates m)) (sort_str w) = Ok names).
    { assert (Hall : forall c, In c (sort_str w) -> In c w)
        by (intros c Hc; exact (proj1 (sort_by_In str_leb c w) Hc)).
      induction (sort_str w) as [|x r IH]; [exists []; reflexivity|]. cbn [mapM].
      destruct (Hg x) as [nm En]; [apply Hall; left; reflexivity|]. rewrite En. cbn [bind].
      destruct IH as [ns Ens]; [intros c Hc; apply Hall; right; exact Hc|]. rewrite Ens. cbn [bind]. eauto. }
    destruct Hm as [names Em]. rewrite Em. cbn [bind]. eexists. split; [reflexivity|]. split; [exact T|reflexivity].
  - destruct w as [|x w']; [congruence|]. cbn [nth_error of_option bind].
    destruct (Hg x) as [nm En]; [left; reflexivity|]. rewrite En. cbn [bind].
    eexists. split; [reflexivity|]. split; [exact T|reflexivity].
Qed.

(** Facts of round [i] of a run, for any invariant [P] of the count. *)
Lemma irv_round_at (P : list str -> list voteline -> Prop) o m d i rc rm :
  schedule o -> irv_election m -> IRV_dict_from_jabmod o m = Ok d -> round d i rc rm ->
  (forall n cs ls cs' ls', irv_step o n cs ls cs' ls' -> P cs ls -> P cs' ls') -> P (cands m) (j_votelines m) ->
  exists cs ls, P cs ls /\
    round_facts o (S i) cs ls (ir_winner d) rc rm (skipn (S i) (ir_rounds d)) (skipn (S i) (ir_roundmeta d)).
Proof.
  intros Ho Hm E [E1 E2] HP H0. destruct (irv_run o m Ho Hm) as [d' [E' [T _]]].
  rewrite E in E'. apply ok_inj in E'. subst d'. exact (trace_round P _ _ _ _ _ _ _ _ i rc rm HP T H0 E1 E2).
Qed.
Definition anyP (cs : list str) (ls : list voteline) : Prop := True.
Lemma anyP_step o n cs ls cs' ls' : irv_step o n cs ls cs' ls' -> anyP cs ls -> anyP cs' ls'.
Proof. intros; exact I. Qed.

(** ** Samples *)
Definition irv_sample : jabmod := Jabmod []
  [(A, u "Ann"); (B, u "Bob"); (C, u "Cy"); (D, u "Di"); (E, u "Ed")]
  [ vl 7 [(A, ranked 1); (B, ranked 2)];
    vl 5 [(B, ranked 1); (C, ranked 2)];
    vl 2 [(C, ranked 1); (B, ranked 2)];
    vl 1 [(D, ranked 1); (B, ranked 2)];
    vl 1 [(E, ranked 1)] ].
Definition o0 : oracle := Oracle (fun _ => 0%nat) (fun _ l => l).
Definition o_rev : oracle := Oracle (fun n => n) (fun _ l => rev l).
Example o0_ok : schedule o0. Proof. intros n l. apply Permutation_refl. Qed.
Example o_rev_ok : schedule o_rev. Proof. intros n l. apply Permutation_sym, Permutation_rev. Qed.
Ltac irv_elec := split; [nodup|]; split; [discriminate|]; intros l Hl; simpl in Hl;
  repeat (destruct Hl as [<-|Hl]); try (destruct Hl);
  (split; [split; [nodup|intros x Hx; simpl in *; intuition (subst; auto 10)]
          |intros c p Hp; simpl in Hp; repeat (destruct Hp as [Hp|Hp]; [inversion Hp; discriminate|]); destruct Hp]).
Example irv_sample_ok : irv_election irv_sample. Proof. irv_elec. Qed.
Example irv_sample_runs : match IRV_dict_from_jabmod o0 irv_sample with
  | Ok d => (length (ir_rounds d), ir_winner d) | Err _ => (0%nat, []) end = (3%nat, [B]).
Proof. vm_compute. reflexivity. Qed.

(** ** C16 *)
Theorem C16_irv_always_answers : forall o m, schedule o -> irv_election m ->
  exists d report, IRV_dict_from_jabmod o m = Ok d /\ get_IRV_report d = Ok report /\
    (1 <= length (ir_rounds d) <= length (cands m))%nat /\
    length (ir_roundmeta d) = length (ir_rounds d) /\
    ir_winner d <> [] /\ NoDup (ir_winner d) /\ incl (ir_winner d) (cands m).
Proof.
  intros o m Ho Hm. destruct (irv_run o m Ho Hm) as (d&E&T&_).
  destruct (trace_lengths _ _ _ _ _ _ _ _ T) as [L1 L2]. destruct (trace_winner _ _ _ _ _ _ _ _ Ho T) as (W1&W2&W3).
  assert (Hr : forall rs ms i, length ms = length rs -> exists t, irv_rounds_text i rs ms = Ok t).
  { induction rs as [|a rs IH]; intros [|b ms] i Hl; cbn [length] in Hl; try discriminate; cbn [irv_rounds_text]; [eauto|].
    destruct (IH ms (S i)) as [t Et]; [congruence|]. rewrite Et. cbn [bind]. eauto. }
  destruct (Hr _ _ 0%nat L1) as [t Et].
  assert (Hrep : exists rep, get_IRV_report d = Ok rep).
  { unfold get_IRV_report. rewrite Et. cbn [bind]. destruct (1 <? length (ir_winner d))%nat; [eauto|].
    destruct (ir_winner d) as [|x r]; [congruence|]. cbn [nth_error of_option bind]. eauto. }
  destruct Hrep as [rep Erep]. exists d, rep. split; [exact E|]. split; [exact Erep|].
  split; [|auto]. split; [destruct (ir_rounds d); [congruence|cbn; lia]|].
  apply (trace_rounds_bound _ _ _ _ _ _ _ _ Ho T).
Qed.
Print Assumptions C16_irv_always_answers.

(** The empty election is an error (min() of nothing). *)
Theorem C16_no_candidates : forall o md ls, (forall l, In l ls -> v_prefs l = []) ->
  IRV_dict_from_jabmod o (Jabmod md [] ls) = Err ValueError.
Proof.
  intros o md ls H. unfold IRV_dict_from_jabmod. cbn [j_candidates dkeys map length irv_count j_votelines].
  unfold irv_round. cbn [fold_left].
  assert (Hov : forall l, In l ls -> top_overvoted l = Ok false).
  { intros l Hl. unfold top_overvoted, ranked_list. rewrite (H l Hl). reflexivity. }
  assert (Ed : discard_overvotes ls = Ok (0, ls)).
  { clear H. induction ls as [|l r IH]; [reflexivity|]. cbn [discard_overvotes]. rewrite Hov by (left; reflexivity). cbn [bind].
    rewrite IH by (intros; apply Hov; right; assumption). reflexivity. }
  rewrite Ed. cbn [bind].
  assert (Ef : forall bc ex, exists bc' ex', foldM count_step ls ([], bc, ex) = Ok ([], bc', ex')).
  { clear Hov Ed. induction ls as [|l r IH]; intros bc ex; [do 2 eexists; reflexivity|]. cbn [foldM]. unfold count_step at 1.
    rewrite (H l) by (left; reflexivity). cbn [length topcand ranked_list mapM bind sort_asc sort_by fold_right].
    apply IH. intros; apply H; right; assumption. }
  destruct (Ef 0 0) as (bc'&ex'&Ef'). cbv zeta; cbn [fold_left]; unfold dict in *; rewrite Ef'. reflexivity.
Qed.
Print Assumptions C16_no_candidates.

(** ** C17 *)
Theorem C17_irv_conserves_ballots : forall o m d i rc rm, schedule o -> irv_election m ->
  IRV_dict_from_jabmod o m = Ok d -> round d i rc rm ->
  im_startingqty rm = im_overvoteqty rm + im_exhaustedqty rm + zsum (dvals rc) /\
  im_ballotcount rm = im_startingqty rm - im_overvoteqty rm /\
  (i = 0%nat -> im_startingqty rm = total_ballots m) /\
  (forall rc' rm', round d (S i) rc' rm' -> im_startingqty rm' = im_ballotcount rm).
Proof.
  intros o m d i rc rm Ho Hm E Hr.
  destruct (irv_run o m Ho Hm) as (d'&E'&T0&_). rewrite E in E'. apply ok_inj in E'. subst d'.
  destruct (irv_round_at anyP o m d i rc rm Ho Hm E Hr (anyP_step o) I) as (cs&ls&_&F).
  destruct F as (pa&mn&mx&pen&Hn&Hne&Hl&R&->&F).
  destruct (discard_eq ls) as (_&_&Hsum); [intros l Hll; apply Hl; exact Hll|].
  assert (Hsp := tally_split cs ls Hn Hl). rewrite dvals_dmap.
  assert (Q : im_startingqty rm = zsum (map v_qty ls) /\ im_overvoteqty rm = overvoted ls /\
              im_exhaustedqty rm = exhausted ls /\ im_ballotcount rm = zsum (map v_qty (pruned ls))).
  { destruct F as [(_&_&_&_&->)|(_&->&_)]; cbn; auto. }
  destruct Q as (Q1&Q2&Q3&Q4). rewrite Q1, Q2, Q3, Q4. split; [lia|]. split; [lia|]. split.
  - intros ->. destruct Hr as [_ Hr2]. destruct (trace_first _ _ _ _ _ _ _ _ T0) as (a&b&x&y&_&Eb&_&Eq&_).
    rewrite Eb in Hr2. cbn [nth_error] in Hr2. apply some_inj in Hr2. subst b. rewrite Q1 in Eq. exact Eq.
  - intros rc' rm' [E1 E2]. apply skipn_nth in E1, E2. destruct F as [(_&F1&_)|(_&_&F1)].
    + rewrite E1 in F1. discriminate.
    + rewrite E1, E2 in F1. destruct (trace_first _ _ _ _ _ _ _ _ F1) as (a&b&x&y&_&Eb&_&Eq&_).
      injection Eb as -> _. rewrite Eq, without_qty. reflexivity.
Qed.
Print Assumptions C17_irv_conserves_ballots.

(** ** C18 *)
Theorem C18_irv_candidate_bookkeeping : forall o m d i rc rm, schedule o -> irv_election m ->
  IRV_dict_from_jabmod o m = Ok d -> round d i rc rm ->
  im_roundnum rm = S i /\
  map fst rc = im_starting_cands rm /\ NoDup (im_starting_cands rm) /\
  (i = 0%nat -> im_starting_cands rm = cands m) /\
  (forall rc' rm', round d (S i) rc' rm' ->
     im_eliminated rm <> [] /\ incl (im_eliminated rm) (im_starting_cands rm) /\
     im_starting_cands rm' <> [] /\
     forall c, In c (im_starting_cands rm') <-> In c (im_starting_cands rm) /\ ~ In c (im_eliminated rm)).
Proof.
  intros o m d i rc rm Ho Hm E Hr.
  destruct (irv_run o m Ho Hm) as (d'&E'&T0&_). rewrite E in E'. apply ok_inj in E'. subst d'.
  destruct (irv_round_at anyP o m d i rc rm Ho Hm E Hr (anyP_step o) I) as (cs&ls&_&F).
  destruct F as (pa&mn&mx&pen&Hn&Hne&Hl&R&->&F).
  assert (Q : im_roundnum rm = S i /\ im_starting_cands rm = cs).
  { destruct F as [(_&_&_&_&->)|(_&->&_)]; cbn; auto. }
  destruct Q as (Q1&Q2). rewrite Q1, Q2. split; [reflexivity|]. split; [apply dkeys_dmap|]. split; [exact Hn|]. split.
  - intros ->. destruct Hr as [_ Hr2]. destruct (trace_first _ _ _ _ _ _ _ _ T0) as (a&b&x&y&_&Eb&_&_&Eq&_).
    rewrite Eb in Hr2. cbn [nth_error] in Hr2. apply some_inj in Hr2. subst b. congruence.
  - intros rc' rm' [E1 E2]. apply skipn_nth in E1, E2. destruct F as [(_&F1&_)|(_&Erm&F1)].
    + rewrite E1 in F1. discriminate.
    + rewrite E1, E2 in F1. destruct (trace_first _ _ _ _ _ _ _ _ F1) as (a&b&x&y&_&Eb&_&_&Eq&_).
      injection Eb as -> _. subst rm. cbn [mk_meta im_eliminated].
      destruct (elim_facts o (S i) cs ls mn mx pen _ Hn R eq_refl) as (He1&He2&He3&_).
      split; [exact He1|]. split; [exact He3|]. split.
      * rewrite Eq. inversion F1; subst; assumption.
      * intro c. rewrite Eq. split.
        -- intro Hc. apply (Permutation_in _ (Ho _ _)) in Hc. apply set_minus_In; exact Hc.
        -- intro Hc. apply (Permutation_in _ (Permutation_sym (Ho _ _))). apply set_minus_In; exact Hc.
Qed.
Print Assumptions C18_irv_candidate_bookkeeping.

Theorem C18_irv_eliminated_stay_out : forall o m d i rc rm c, schedule o -> irv_election m ->
  IRV_dict_from_jabmod o m = Ok d -> round d i rc rm -> In c (im_eliminated rm) ->
  ~ In c (ir_winner d) /\
  forall j rc' rm', (i < j)%nat -> round d j rc' rm' -> ~ In c (im_starting_cands rm').
Proof.
  intros o m d i rc rm c Ho Hm E Hr Hc.
  destruct (irv_round_at anyP o m d i rc rm Ho Hm E Hr (anyP_step o) I) as (cs&ls&_&F).
  destruct F as (pa&mn&mx&pen&Hn&Hne&Hl&R&->&F).
  destruct F as [(_&F1&F2&Ew&Erm)|(_&Erm&F1)].
  - subst rm. cbn [mk_meta im_eliminated] in Hc. apply set_minus_In in Hc as [_ Hc]. split; [exact Hc|].
    intros j rc' rm' Hj [E1 _]. exfalso. apply skipn_nil_last in F1. apply nth_lt in E1. lia.
  - subst rm. cbn [mk_meta im_eliminated] in Hc. split.
    + intro Hw. destruct (trace_winner _ _ _ _ _ _ _ _ Ho F1) as (_&_&W). apply W in Hw.
      apply (Permutation_in _ (Ho _ _)), set_minus_In in Hw. tauto.
    + intros j rc' rm' Hj [_ E2] Hi.
      assert (E3 : nth_error (skipn (S i) (ir_roundmeta d)) (j - S i) = Some rm').
      { rewrite nth_error_skipn. replace (S i + (j - S i))%nat with j by lia. exact E2. }
      apply (trace_incl _ _ _ _ _ _ _ _ _ _ Ho F1 E3) in Hi.
      apply (Permutation_in _ (Ho _ _)), set_minus_In in Hi. tauto.
Qed.
Print Assumptions C18_irv_eliminated_stay_out.

(** ** C19 *)
Theorem C19_irv_stops_on_majority_or_tie : forall o m d i rc rm, schedule o -> irv_election m -> counts_ok m ->
  IRV_dict_from_jabmod o m = Ok d -> round d i rc rm ->
  (final d i ->
     im_winner rm = Some (ir_winner d) /\
     ( (exists w v, ir_winner d = [w] /\ dget w rc = Some v /\ zsum (dvals rc) < 2 * v)
       \/ ((forall a b x y, dget a rc = Some x -> dget b rc = Some y -> x = y) /\ ir_winner d = map fst rc) )) /\
  (~ final d i ->
     im_winner rm = None /\
     (exists a b x y, dget a rc = Some x /\ dget b rc = Some y /\ x <> y) /\
     (forall c v, dget c rc = Some v -> 2 * v <= zsum (dvals rc))).
Proof.
  intros o m d i rc rm Ho Hm Hq E Hr.
  destruct (irv_round_at (fun _ ls => nonneg_lines ls) o m d i rc rm Ho Hm E Hr
              (fun n cs ls cs' ls' => nonneg_step o n cs ls cs' ls') Hq) as (cs&ls&Hnn&F).
  destruct F as (pa&mn&mx&pen&Hn&Hne&Hl&R&->&F). destruct Hr as [Hr1 _].
  assert (HL := nth_lt _ _ _ Hr1). rewrite dvals_dmap.
  assert (Hget : forall c v, dget c (dmap cs (tally ls)) = Some v <-> In c cs /\ v = tally ls c).
  { intros c v. rewrite dget_dmap. destruct (memb c cs) eqn:Em.
    - apply memb_In in Em. split; [intro H; apply some_inj in H; auto|intros [_ ->]; reflexivity].
    - apply memb_nIn in Em. split; [discriminate|tauto]. }
  destruct (rn_min _ _ _ _ _ R) as [[cmin [Hcmin Emin]] Hmin].
  destruct (rn_max _ _ _ _ _ R) as [[cmax [Hcmax Emax]] Hmax].
  destruct F as [(Hd&F1&F2&Ew&Erm)|(Hd&Erm&T)].
  - split.
    + intros _. split; [subst rm; reflexivity|].
      destruct (Z.eq_dec mn mx) as [Heq|Hneq].
      * right. split.
        -- intros a b x y Ha Hb. apply Hget in Ha as [Ha ->], Hb as [Hb ->].
           pose proof (Hmin a Ha). pose proof (Hmax a Ha). pose proof (Hmin b Hb). pose proof (Hmax b Hb). lia.
        -- rewrite Ew. change (map fst (dmap cs (tally ls))) with (dkeys (dmap cs (tally ls))). rewrite dkeys_dmap.
           apply filter_all. intros c Hc. pose proof (Hmin c Hc). pose proof (Hmax c Hc). lia.
      * left. destruct Hd as [Hd|Hd]; [contradiction|].
        destruct (majority_unique cs ls mx Hn Hl Hnn (rn_max _ _ _ _ _ R) Hd) as (c&Ec&Hc&Et).
        exists c, mx. split; [congruence|]. split; [apply Hget; auto|exact Hd].
    + intro Hnf. exfalso. apply Hnf. unfold final. apply skipn_nil_last in F1. lia.
  - split.
    + intro Hf. exfalso. destruct (trace_lengths _ _ _ _ _ _ _ _ T) as [_ Hne'].
      apply Hne'. apply skipn_all2. unfold final in Hf. lia.
    + intros _. split; [subst rm; reflexivity|]. split.
      * exists cmin, cmax, mn, mx. split; [apply Hget; auto|]. split; [apply Hget; auto|].
        intro Heq. apply Hd. left; exact Heq.
      * intros c v Hc. apply Hget in Hc as [Hc ->]. specialize (Hmax c Hc).
        destruct (Z_lt_le_dec (zsum (map (tally ls) cs)) (2 * mx)); [exfalso; apply Hd; right; assumption|lia].
Qed.
Print Assumptions C19_irv_stops_on_majority_or_tie.

(** ** C20 *)
Theorem C20_irv_majority_first_round : forall o m d rc rm c v, schedule o -> irv_election m -> counts_ok m ->
  IRV_dict_from_jabmod o m = Ok d -> round d 0 rc rm ->
  dget c rc = Some v -> zsum (dvals rc) < 2 * v ->
  ir_winner d = [c] /\ length (ir_rounds d) = 1%nat.
Proof.
  intros o m d rc rm c v Ho Hm Hq E Hr Hc Hv.
  destruct (C19_irv_stops_on_majority_or_tie o m d 0 rc rm Ho Hm Hq E Hr) as [H1 H2].
  assert (Hf : final d 0).
  { unfold final. destruct (Nat.eq_dec 1 (length (ir_rounds d))) as [e|ne]; [exact e|].
    destruct (H2 ne) as (_&_&H3). specialize (H3 c v Hc). lia. }
  split; [|symmetry; exact Hf].
  destruct (H1 Hf) as [_ [(w&x&Ew&Ex&Hx)|[Htie Ew]]].
  - destruct (str_eqb w c) eqn:Ewc; [apply str_eqb_eq in Ewc; congruence|]. apply str_eqb_neq in Ewc. exfalso.
    destruct (irv_round_at (fun _ ls => nonneg_lines ls) o m d 0 rc rm Ho Hm E Hr
              (fun n cs ls cs' ls' => nonneg_step o n cs ls cs' ls') Hq) as (cs&ls&Hnn&F).
    destruct F as (pa&mn&mx&pen&Hn&Hne&Hl&R&->&F). rewrite dvals_dmap in *.
    rewrite dget_dmap in Hc, Ex. destruct (memb c cs) eqn:Mc; [|discriminate]. destruct (memb w cs) eqn:Mw; [|discriminate].
    apply some_inj in Hc, Ex. apply memb_In in Mc, Mw.
    pose proof (two_le_sum (tally ls) cs w c Hn Mw Mc Ewc (fun x _ => tally_nonneg cs ls x Hl Hnn)). lia.
  - rewrite Ew. destruct rc as [|[k x] [|[k2 x2] r]].
    + discriminate.
    + cbn in Hc. destruct (str_eqb c k) eqn:Ek; [|discriminate]. apply str_eqb_eq in Ek. subst; reflexivity.
    + exfalso.
      destruct (irv_round_at (fun _ ls => nonneg_lines ls) o m d 0 _ rm Ho Hm E Hr
              (fun n cs ls cs' ls' => nonneg_step o n cs ls cs' ls') Hq) as (cs&ls&Hnn&F).
      destruct F as (pa&mn&mx&pen&Hn&Hne&Hl&R&Erc&F). rewrite Erc in *. rewrite dvals_dmap in Hv.
      rewrite dget_dmap in Hc. destruct (memb c cs) eqn:Mc; [|discriminate]. apply some_inj in Hc. apply memb_In in Mc.
      assert (Hother : exists b, In b cs /\ b <> c).
      { destruct cs as [|b1 [|b2 cs']]; [discriminate|discriminate|].
        destruct (str_eqb b1 c) eqn:Eb.
        - apply str_eqb_eq in Eb. exists b2. split; [right; left; reflexivity|]. intros ->. inversion Hn; subst. apply H3; left; reflexivity.
        - apply str_eqb_neq in Eb. exists b1. split; [left; reflexivity|exact Eb]. }
      destruct Hother as [b [Hb Hbc]].
      pose proof (two_le_sum (tally ls) cs b c Hn Hb Mc Hbc (fun x _ => tally_nonneg cs ls x Hl Hnn)) as H3.
      assert (Heq : tally ls b = tally ls c).
      { apply (Htie b c); rewrite dget_dmap, (proj2 (memb_In _ _)); auto. }
      lia.
Qed.
Print Assumptions C20_irv_majority_first_round.

(** ** C21 *)
Theorem C21_irv_eliminates_last_place : forall o m d i rc rm, schedule o -> irv_election m ->
  IRV_dict_from_jabmod o m = Ok d -> round d i rc rm -> ~ final d i ->
  (* everybody eliminated has the lowest count of the round *)
  (forall c, In c (im_eliminated rm) -> exists v, dget c rc = Some v /\ forall b x, dget b rc = Some x -> v <= x) /\
  (* several at once: all those with the lowest count, and only if together they do not exceed
     the count of any other candidate *)
  ((1 < length (im_eliminated rm))%nat ->
     im_batch_elim rm = true /\
     (forall c v, dget c rc = Some v -> (forall b x, dget b rc = Some x -> v <= x) -> In c (im_eliminated rm)) /\
     forall b x, dget b rc = Some x -> ~ In b (im_eliminated rm) ->
       zsum (map (fun c => match dget c rc with Some v => v | None => 0 end) (im_eliminated rm)) <= x) /\
  (* one by lot: only from a real tie that is not safe to eliminate together *)
  (im_random_elim rm = true ->
     exists c tie, im_eliminated rm = [c] /\ im_bottomtie rm = Some tie /\ In c tie /\ (1 < length tie)%nat /\ NoDup tie /\
       (forall b, In b tie <-> exists v, dget b rc = Some v /\ forall b' x, dget b' rc = Some x -> v <= x) /\
       exists b x, dget b rc = Some x /\ ~ In b tie /\
         x < zsum (map (fun c => match dget c rc with Some v => v | None => 0 end) tie)) /\
  (* otherwise one candidate alone in last place *)
  (im_random_elim rm = false -> im_batch_elim rm = false ->
     exists c v, im_eliminated rm = [c] /\ dget c rc = Some v /\ forall b x, dget b rc = Some x -> b <> c -> v < x).
Proof.
  intros o m d i rc rm Ho Hm E Hr Hnf.
  destruct (irv_round_at anyP o m d i rc rm Ho Hm E Hr (anyP_step o) I) as (cs&ls&_&F).
  destruct F as (pa&mn&mx&pen&Hn&Hne&Hl&R&->&F). destruct Hr as [Hr1 _]. assert (HL := nth_lt _ _ _ Hr1).
  assert (Hget : forall c v, dget c (dmap cs (tally ls)) = Some v <-> In c cs /\ v = tally ls c).
  { intros c v. rewrite dget_dmap. destruct (memb c cs) eqn:Em.
    - apply memb_In in Em. split; [intro H; apply some_inj in H; auto|intros [_ ->]; reflexivity].
    - apply memb_nIn in Em. split; [discriminate|tauto]. }
  destruct F as [(Hd&F1&F2&Ew&Erm)|(Hd&Erm&T)].
  { exfalso. apply Hnf. apply skipn_nil_last in F1. unfold final. lia. }
  destruct (elim_spec o (S i) cs ls mn mx pen _ (rn_min _ _ _ _ _ R) eq_refl) as [_ [Hbne Hc]].
  cbv zeta in Hc.
  set (bottom := filter (fun c => tally ls c =? mn) cs) in *.
  destruct (rn_min _ _ _ _ _ R) as [[cmin [Hcmin Emin]] Hmin].
  destruct (rn_max _ _ _ _ _ R) as [[cmax [Hcmax Emax]] Hmax].
  destruct (rn_pen _ _ _ _ _ R) as [_ Hpen].
  assert (Hneq : mn <> mx) by (intro; apply Hd; left; assumption).
  destruct (Hpen Hneq) as [[cp [Hcp Ecp]] Hplb]. apply filter_In in Hcp as [Hcp Hcp2].
  assert (Hb : forall c, In c bottom <-> exists v, dget c (dmap cs (tally ls)) = Some v /\
                forall b x, dget b (dmap cs (tally ls)) = Some x -> v <= x).
  { intro c. unfold bottom. rewrite filter_In. split.
    - intros [H1 H2]. exists (tally ls c). split; [apply Hget; auto|]. intros b x Hbx. apply Hget in Hbx as [Hbx ->].
      specialize (Hmin b Hbx). lia.
    - intros (v&Hv&Hlow). apply Hget in Hv as [Hv ->]. split; [exact Hv|]. specialize (Hlow cmin mn).
      assert (tally ls c <= mn) by (apply Hlow, Hget; auto). specialize (Hmin c Hv). lia. }
  assert (Hnb : forall b, In b cs -> ~ In b bottom -> pen <= tally ls b).
  { intros b Hbc Hnb. apply Hplb. apply filter_In. split; [exact Hbc|]. specialize (Hmin b Hbc).
    destruct (Z.gtb_spec (tally ls b) mn); [reflexivity|]. exfalso. apply Hnb. apply filter_In. split; [exact Hbc|lia]. }
  assert (Hsum : forall e, incl e bottom ->
      zsum (map (fun c => match dget c (dmap cs (tally ls)) with Some v => v | None => 0 end) e) = zsum (map (tally ls) e)).
  { intros e Hi. apply zsum_map_ext. intros c Hce. apply Hi in Hce. apply filter_In in Hce as [Hce _].
    rewrite (proj2 (Hget c (tally ls c))); auto. }
  assert (Hbn : NoDup bottom) by (apply NoDup_filter; exact Hn).
  rewrite Erm. cbn [mk_meta im_eliminated im_batch_elim im_random_elim im_bottomtie].
  destruct Hc as [(Hlen&Eed)|[(Hlen&Hsafe&Eed)|(Hlen&Hunsafe&x&Hx&Eed)]]; rewrite Eed;
    cbn [ed_eliminated ed_batch ed_random ed_bottomtie].
  - split; [intros c Hci; apply Hb; exact Hci|]. split; [intro; lia|]. split; [discriminate|].
    intros _ _. destruct bottom as [|c [|c2 r]] eqn:Eb; cbn [length] in Hlen; try lia.
    exists c, mn. split; [reflexivity|]. assert (Hcb : In c bottom) by (rewrite Eb; left; reflexivity).
    unfold bottom in Hcb. apply filter_In in Hcb as [H1 H2]. split; [apply Hget; split; [exact H1|lia]|].
    intros b x Hbx Hneqb. apply Hget in Hbx as [Hbx ->]. specialize (Hmin b Hbx).
    destruct (Z.eq_dec (tally ls b) mn) as [Eq|]; [|lia]. exfalso.
    assert (Hbb : In b (filter (fun c => tally ls c =? mn) cs)) by (apply filter_In; split; [exact Hbx|lia]).
    fold bottom in Hbb. rewrite Eb in Hbb. destruct Hbb as [->|[]]. congruence.
  - split; [intros c Hci; apply Hb; exact Hci|]. split; [|split; [discriminate|intros _ H; discriminate]].
    intros _. split; [reflexivity|]. split; [intros c v Hv Hlow; apply Hb; eauto|].
    intros b x Hbx Hnbx. apply Hget in Hbx as [Hbx ->]. rewrite Hsum by apply incl_refl.
    specialize (Hnb b Hbx Hnbx). lia.
  - split; [intros c [<-|[]]; apply Hb; exact Hx|]. split; [cbn [length]; intro; lia|]. split; [|intro; discriminate].
    intros _. exists x, bottom. split; [reflexivity|]. split; [reflexivity|]. split; [exact Hx|]. split; [exact Hlen|].
    split; [exact Hbn|]. split; [exact Hb|]. exists cp, pen. split; [apply Hget; auto|]. split.
    + unfold bottom. rewrite filter_In. intros [_ H]. lia.
    + rewrite Hsum by apply incl_refl. exact Hunsafe.
Qed.
Print Assumptions C21_irv_eliminates_last_place.

(** ** C22 *)

(** No ballot gives two candidates the same rank, and no rank reaches 9999999999, the program's
    "close enough to infinity". *)
Definition strict_election (m : jabmod) : Prop :=
  forall l, In l (j_votelines m) -> strict_line 9999999999 l.

Ltac split_gets := repeat match goal with
           | H : context [if str_eqb ?a ?b then _ else _] |- _ => destruct (str_eqb a b) eqn:?
           end.
Ltac strict_elec := intros l Hl; simpl in Hl; repeat (destruct Hl as [<-|Hl]); try (destruct Hl);
  (split;
  [ intros c c' r Hc Hc'; unfold rank_on in Hc, Hc'; cbn [v_prefs vl dget] in Hc, Hc';
    split_gets; repeat match goal with H : str_eqb _ _ = true |- _ => apply str_eqb_eq in H end; subst; try discriminate; auto;
    cbn in Hc, Hc'; congruence
  | split;
    [ intros c r Hc; unfold rank_on in Hc; cbn [v_prefs vl dget] in Hc;
      split_gets; try discriminate; cbn in Hc; apply some_inj in Hc; lia
    | simpl; intuition discriminate ] ]).

Example irv_sample_strict : strict_election irv_sample.
Proof. strict_elec. Qed.
Example irv_sample_counts : counts_ok irv_sample.
Proof. intros l Hl. simpl in Hl. intuition (subst; cbn; lia). Qed.

Lemma strict_at o m d i rc rm : schedule o -> irv_election m -> strict_election m ->
  IRV_dict_from_jabmod o m = Ok d -> round d i rc rm ->
  exists gone cs ls, strict_state (cands m) (j_votelines m) gone cs ls /\
    round_facts o (S i) cs ls (ir_winner d) rc rm (skipn (S i) (ir_rounds d)) (skipn (S i) (ir_roundmeta d)).
Proof.
  intros Ho Hm Hs E Hr.
  destruct (irv_round_at (fun cs ls => exists gone, strict_state (cands m) (j_votelines m) gone cs ls) o m d i rc rm Ho Hm E Hr
              (fun n cs ls cs' ls' => strict_step o (cands m) (j_votelines m) n cs ls cs' ls' Ho)) as (cs&ls&[gone Hst]&F).
  - exists []. apply strict_init; [intros l Hl; apply Hm; exact Hl|exact Hs].
  - eauto.
Qed.

Theorem C22_irv_tallies_are_top_choices : forall o m d i rc rm, schedule o -> irv_election m -> strict_election m ->
  IRV_dict_from_jabmod o m = Ok d -> round d i rc rm ->
  (forall c, In c (im_starting_cands rm) ->
     dget c rc = Some (ballots_where (fun l => top_choice (im_starting_cands rm) l c) (j_votelines m))) /\
  im_exhaustedqty rm = ballots_where (lists_nobody (im_starting_cands rm)) (j_votelines m) /\
  im_overvoteqty rm = 0.
Proof.
  intros o m d i rc rm Ho Hm Hs E Hr.
  destruct (strict_at o m d i rc rm Ho Hm Hs E Hr) as (gone&cs&ls&Hst&F).
  destruct F as (pa&mn&mx&pen&Hn&Hne&Hl&R&->&F).
  assert (Q : im_starting_cands rm = cs /\ im_exhaustedqty rm = exhausted ls /\ im_overvoteqty rm = overvoted ls).
  { destruct F as [(_&_&_&_&->)|(_&->&_)]; cbn; auto. }
  destruct Q as (->&->&->). destruct (strict_tally _ _ _ _ _ Hst Hl) as (_&Eo&Et&Ee).
  split; [|split; [exact Ee|exact Eo]]. intros c Hc. rewrite dget_dmap, (proj2 (memb_In _ _) Hc), Et. reflexivity.
Qed.
Print Assumptions C22_irv_tallies_are_top_choices.

(** Majority criterion in terms of ballots: strictly more than half of all ballots put [c] first. *)
Theorem C20_irv_majority_criterion : forall o m d c, schedule o -> irv_election m -> strict_election m -> counts_ok m ->
  IRV_dict_from_jabmod o m = Ok d -> In c (cands m) ->
  total_ballots m < 2 * ballots_where (fun l => top_choice (cands m) l c) (j_votelines m) ->
  ir_winner d = [c] /\ length (ir_rounds d) = 1%nat.
Proof.
  intros o m d c Ho Hm Hs Hq E Hc Hmaj.
  destruct (irv_run o m Ho Hm) as (d'&E'&T0&_). rewrite E in E'. apply ok_inj in E'. subst d'.
  destruct (trace_first _ _ _ _ _ _ _ _ T0) as (rc&rm&rs'&ms'&E1&E2&_&_&Esc&_).
  assert (Hr : round d 0 rc rm) by (split; [rewrite E1|rewrite E2]; reflexivity).
  destruct (C22_irv_tallies_are_top_choices o m d 0 rc rm Ho Hm Hs E Hr) as (H1&_&H3).
  rewrite Esc in H1. specialize (H1 c Hc).
  destruct (C17_irv_conserves_ballots o m d 0 rc rm Ho Hm E Hr) as (H4&_&H5&_). specialize (H5 eq_refl).
  apply (C20_irv_majority_first_round o m d rc rm c _ Ho Hm Hq E Hr H1).
  destruct (C22_irv_tallies_are_top_choices o m d 0 rc rm Ho Hm Hs E Hr) as (_&H6&_).
  assert (0 <= im_exhaustedqty rm) by (rewrite H6; apply ballots_where_nonneg; exact Hq). lia.
Qed.
Print Assumptions C20_irv_majority_criterion.

(** ** C23 *)
Theorem C23_irv_chance_only_where_reported : forall o o' m d d', schedule o -> schedule o' -> irv_election m ->
  IRV_dict_from_jabmod o m = Ok d -> IRV_dict_from_jabmod o' m = Ok d' ->
  (forall i rc rm, round d i rc rm -> ~ final d i -> im_random_elim rm = false) ->
  Permutation (ir_winner d) (ir_winner d') /\
  length (ir_rounds d) = length (ir_rounds d') /\
  (forall i rc rm rc' rm', round d i rc rm -> round d' i rc' rm' ->
     Permutation rc rc' /\ im_startingqty rm = im_startingqty rm' /\ im_exhaustedqty rm = im_exhaustedqty rm' /\
     im_overvoteqty rm = im_overvoteqty rm' /\ Permutation (im_starting_cands rm) (im_starting_cands rm') /\
     im_random_elim rm = im_random_elim rm' /\ im_batch_elim rm = im_batch_elim rm').
Proof.
  intros o o' m d d' Ho Ho' Hm E E' Hnr.
  destruct (irv_run o m Ho Hm) as (x&Ex&T&_). rewrite E in Ex. apply ok_inj in Ex. subst x.
  destruct (irv_run o' m Ho' Hm) as (x&Ex&T'&_). rewrite E' in Ex. apply ok_inj in Ex. subst x.
  destruct (trace_lengths _ _ _ _ _ _ _ _ T) as [L _].
  assert (Hq : forall k rm, nth_error (ir_roundmeta d) k = Some rm -> (S k < length (ir_roundmeta d))%nat -> im_random_elim rm = false).
  { intros k rm Hk HL. destruct (nth_error (ir_rounds d) k) as [rc|] eqn:Er.
    - apply (Hnr k rc rm); [split; assumption|]. unfold final. lia.
    - apply nth_error_None in Er. lia. }
  destruct (trace_det o o' _ _ _ _ _ _ _ Ho Ho' T Hq _ _ _ _ _ (Permutation_refl _) T') as (H1&H2&H3).
  split; [exact H1|]. split; [clear -H2; induction H2; cbn; congruence|].
  intros i rc rm rc' rm' [A1 A2] [B1 B2]. split.
  - clear -H2 A1 B1. revert i A1 B1. induction H2; intros [|i] A1 B1; cbn [nth_error] in *; try discriminate; eauto.
    apply some_inj in A1, B1. subst; assumption.
  - assert (Hma : meta_agree rm rm').
    { clear -H3 A2 B2. revert i A2 B2. induction H3; intros [|i] A1 B1; cbn [nth_error] in *; try discriminate; eauto.
      apply some_inj in A1, B1. subst; assumption. }
    destruct Hma as (_&M1&M2&M3&_&_&M4&M5&M6). auto 10.
Qed.
Print Assumptions C23_irv_chance_only_where_reported.

(** Two runs on the sample whose oracles differ. *)
Example C23_sample : exists d d', IRV_dict_from_jabmod o0 irv_sample = Ok d /\ IRV_dict_from_jabmod o_rev irv_sample = Ok d' /\
  map im_random_elim (ir_roundmeta d) = [false; false; false] /\ ir_winner d = ir_winner d' /\ ir_rounds d <> ir_rounds d'.
Proof. do 2 eexists. split; [vm_compute; reflexivity|]. split; [vm_compute; reflexivity|]. vm_compute. split; [reflexivity|]. split; [reflexivity|discriminate]. Qed.

(** Without the hypothesis the winner really depends on the lot: A=5, B=5, C=6 and B, A, ... *)
Definition lot_sample : jabmod := Jabmod [] [(A, u "a"); (B, u "b"); (C, u "c")]
  [ vl 5 [(A, ranked 1); (B, ranked 2)]; vl 5 [(B, ranked 1); (A, ranked 2)]; vl 6 [(C, ranked 1)] ].
Theorem C23_lot_decides : exists o o' d d', schedule o /\ schedule o' /\ irv_election lot_sample /\
  IRV_dict_from_jabmod o lot_sample = Ok d /\ IRV_dict_from_jabmod o' lot_sample = Ok d' /\
  ir_winner d = [B] /\ ir_winner d' = [A] /\
  exists rm rm', nth_error (ir_roundmeta d) 0 = Some rm /\ nth_error (ir_roundmeta d') 0 = Some rm' /\
    im_random_elim rm = true /\ im_random_elim rm' = true.
Proof.
  exists o0, (Oracle (fun _ => 1%nat) (fun _ l => l)). do 2 eexists.
  split; [exact o0_ok|]. split; [intros n l; apply Permutation_refl|]. split; [irv_elec|].
  split; [vm_compute; reflexivity|]. split; [vm_compute; reflexivity|].
  split; [reflexivity|]. split; [reflexivity|]. do 2 eexists. split; [reflexivity|]. split; [reflexivity|]. split; reflexivity.
Qed.
Print Assumptions C23_lot_decides.

(** ** C24 *)
Theorem C24_irv_mutual_majority : forall o m d s, schedule o -> irv_election m -> strict_election m -> counts_ok m ->
  IRV_dict_from_jabmod o m = Ok d ->
  (exists a, In a (cands m) /\ In a s) ->
  total_ballots m < 2 * ballots_where (solid_for s (cands m)) (j_votelines m) ->
  (exists w, In w (ir_winner d) /\ In w s) /\
  (forall w, ir_winner d = [w] -> In w s).
Proof.
  intros o m d s Ho Hm Hs Hq E Ha Hmaj.
  destruct (irv_run o m Ho Hm) as (x&Ex&T&_). rewrite E in Ex. apply ok_inj in Ex. subst x.
  assert (G : exists w, In w (ir_winner d) /\ In w s).
  { destruct (existsb (fun b => negb (memb b s)) (cands m)) eqn:Eb.
    - apply existsb_exists in Eb as [b0 [Hb0 Hb0s]]. apply negb_true_iff, memb_nIn in Hb0s.
      apply (mutual_majority (cands m) (j_votelines m) Hq o _ _ _ _ _ _ _ s b0 Ho T); auto.
      exists []. apply strict_init; [intros l Hl; apply Hm; exact Hl|exact Hs].
    - destruct (trace_winner _ _ _ _ _ _ _ _ Ho T) as (W1&_&W2). destruct (ir_winner d) as [|w r]; [congruence|].
      exists w. split; [left; reflexivity|]. assert (Hw : In w (cands m)) by (apply W2; left; reflexivity).
      destruct (memb w s) eqn:Em; [apply memb_In; exact Em|]. exfalso.
      assert (Hx : existsb (fun b => negb (memb b s)) (cands m) = true); [|congruence].
      apply existsb_exists. exists w. split; [exact Hw|rewrite Em; reflexivity]. }
  split; [exact G|]. intros w Ew. destruct G as [x [Hx Hxs]]. rewrite Ew in Hx. destruct Hx as [->|[]]. exact Hxs.
Qed.
Print Assumptions C24_irv_mutual_majority.

Definition mm_sample : jabmod := Jabmod [] [(A, u "a"); (B, u "b"); (C, u "c")]
  [ vl 5 [(A, ranked 1); (B, ranked 2)]; vl 4 [(B, ranked 1); (C, ranked 2); (A, ranked 3)];
    vl 3 [(C, ranked 1); (B, ranked 2); (A, ranked 3)] ].
Example C24_sample : irv_election mm_sample /\ strict_election mm_sample /\ counts_ok mm_sample /\
  total_ballots mm_sample < 2 * ballots_where (solid_for [B; C] (cands mm_sample)) (j_votelines mm_sample).
Proof.
  split; [irv_elec|]. split; [strict_elec|]. split; [|vm_compute; reflexivity].
  intros l Hl; simpl in Hl; intuition (subst; cbn; lia).
Qed.

Definition tie_sample : jabmod := Jabmod [] [(A, u "a"); (B, u "b"); (C, u "c")]
  [ vl 5 [(A, ranked 1); (B, ranked 2); (C, ranked 3)]; vl 5 [(B, ranked 1); (A, ranked 2); (C, ranked 3)];
    vl 5 [(C, ranked 1)] ].
(** With a complete three-way tie the winner list also contains an outsider of a mutual majority. *)
Theorem C24_all_winners_in_majority_set_refuted : exists m s o d,
  schedule o /\ irv_election m /\ strict_election m /\ counts_ok m /\ IRV_dict_from_jabmod o m = Ok d /\
  total_ballots m < 2 * ballots_where (solid_for s (cands m)) (j_votelines m) /\
  exists w, In w (ir_winner d) /\ ~ In w s.
Proof.
  exists tie_sample, [A; B], o0. eexists. split; [exact o0_ok|]. split; [irv_elec|]. split; [strict_elec|].
  split; [intros l Hl; simpl in Hl; intuition (subst; cbn; lia)|].
  split; [vm_compute; reflexivity|]. split; [vm_compute; reflexivity|].
  exists C. split; [vm_compute; auto|simpl; intuition discriminate].
Qed.
Print Assumptions C24_all_winners_in_majority_set_refuted.

(** ** C25 *)
Theorem C25_sole_winner_not_condorcet_loser : forall o m d w, schedule o -> irv_election m -> strict_election m -> counts_ok m ->
  IRV_dict_from_jabmod o m = Ok d -> ir_winner d = [w] -> (2 <= length (cands m))%nat ->
  exists b, In b (cands m) /\ b <> w /\ votes_over m b w <= votes_over m w b.
Proof.
  intros o m d w Ho Hm Hs Hq E Ew H2.
  destruct (irv_run o m Ho Hm) as (x&Ex&T&_). rewrite E in Ex. apply ok_inj in Ex. subst x.
  apply (no_condorcet_loser (cands m) (j_votelines m) Hq o _ _ _ _ _ _ _ w Ho T); auto.
  exists []. apply strict_init; [intros l Hl; apply Hm; exact Hl|exact Hs].
Qed.
Print Assumptions C25_sole_winner_not_condorcet_loser.
Example C25_sample : (2 <= length (cands irv_sample))%nat /\ irv_election irv_sample /\ strict_election irv_sample /\ counts_ok irv_sample.
Proof. split; [cbn; lia|]. split; [exact irv_sample_ok|]. split; [exact irv_sample_strict|exact irv_sample_counts]. Qed.

(** ** C26 *)
Theorem C26_irv_line_order : forall o m ls, schedule o -> irv_election m -> strict_election m ->
  Permutation (j_votelines m) ls ->
  IRV_dict_from_jabmod o (with_lines m ls) = IRV_dict_from_jabmod o m.
Proof.
  intros o m ls Ho (Hn&Hne&Hl) Hs P. unfold IRV_dict_from_jabmod, with_lines. cbn [j_candidates j_votelines].
  rewrite <- (irv_count_perm o _ 1%nat None (dkeys (j_candidates m)) (j_votelines m) ls Ho Hn Hne Hl Hs P). reflexivity.
Qed.
Print Assumptions C26_irv_line_order.

Definition over (q : Z) : voteline := vl q [(A, ranked 1); (B, ranked 1); (C, ranked 2)].
Definition over_sample : jabmod := Jabmod [] [(A, u "a"); (B, u "b"); (C, u "c")]
  [ over 5; over 4; vl 3 [(A, ranked 1)] ].
(** An overvoted line right after another overvoted line is not discarded: the winner depends on the
    order of the lines. *)
Theorem C26_line_order_overvotes_refuted : exists m ls o d d',
  schedule o /\ irv_election m /\ counts_ok m /\ Permutation (j_votelines m) ls /\
  IRV_dict_from_jabmod o m = Ok d /\ IRV_dict_from_jabmod o (with_lines m ls) = Ok d' /\
  ir_winner d = [C] /\ ir_winner d' = [A].
Proof.
  exists over_sample, [over 5; vl 3 [(A, ranked 1)]; over 4], o0. do 2 eexists.
  split; [exact o0_ok|]. split; [irv_elec|]. split; [intros l Hl; simpl in Hl; intuition (subst; cbn; lia)|].
  split; [unfold over_sample; cbn [j_votelines]; apply perm_skip, perm_swap|].
  split; [vm_compute; reflexivity|]. split; [vm_compute; reflexivity|]. split; reflexivity.
Qed.
Print Assumptions C26_line_order_overvotes_refuted.

(** ** C27 *)

(** What the fields really are. *)
Theorem C27_irv_metadata_exact : forall o m d i rc rm, schedule o -> irv_election m ->
  IRV_dict_from_jabmod o m = Ok d -> round d i rc rm ->
  im_countedqty rm = zsum (dvals rc) - im_exhaustedqty rm /\
  (exists c, dget c rc = Some (im_top_voteqty rm)) /\ (forall c v, dget c rc = Some v -> im_top_voteqty rm <= v) /\
  (exists c, dget c rc = Some (im_bottom_voteqty rm)) /\ (forall c v, dget c rc = Some v -> v <= im_bottom_voteqty rm).
Proof.
  intros o m d i rc rm Ho Hm E Hr.
  destruct (irv_round_at anyP o m d i rc rm Ho Hm E Hr (anyP_step o) I) as (cs&ls&_&F).
  destruct F as (pa&mn&mx&pen&Hn&Hne&Hl&R&->&F).
  assert (Q : im_countedqty rm = zsum (map (tally ls) cs) - exhausted ls /\ im_exhaustedqty rm = exhausted ls /\
              im_top_voteqty rm = mn /\ im_bottom_voteqty rm = mx).
  { destruct F as [(_&_&_&_&->)|(_&->&_)]; cbn; auto. }
  destruct Q as (->&->&->&->). rewrite dvals_dmap. split; [reflexivity|].
  assert (Hget : forall c v, dget c (dmap cs (tally ls)) = Some v <-> In c cs /\ v = tally ls c).
  { intros c v. rewrite dget_dmap. destruct (memb c cs) eqn:Em.
    - apply memb_In in Em. split; [intro H; apply some_inj in H; auto|intros [_ ->]; reflexivity].
    - apply memb_nIn in Em. split; [discriminate|tauto]. }
  destruct (rn_min _ _ _ _ _ R) as [[cmin [Hcmin Emin]] Hmin].
  destruct (rn_max _ _ _ _ _ R) as [[cmax [Hcmax Emax]] Hmax].
  split; [exists cmin; apply Hget; auto|]. split; [intros c v Hc; apply Hget in Hc as [Hc ->]; auto|].
  split; [exists cmax; apply Hget; auto|]. intros c v Hc; apply Hget in Hc as [Hc ->]; auto.
Qed.
Print Assumptions C27_irv_metadata_exact.

Lemma trace_all_elim o n pa cs ls w rs ms k rm x :
  trace o n pa cs ls w rs ms -> nth_error ms k = Some rm -> (S k < length ms)%nat ->
  (In x (im_all_eliminated rm) <->
   (exists s, pa = Some s /\ In x s) \/
   exists j rmj, (j <= k)%nat /\ nth_error ms j = Some rmj /\ In x (im_eliminated rmj) /\
                 (pa = None -> j = 0%nat -> im_batch_elim rmj = false)).
Proof.
  intro T. revert k. induction T as [n pa cs ls mn mx pen Hn Hne Hl R Hd|n pa cs ls mn mx pen e w rs ms Hn Hne Hl R Hd He T IH]; intros k Hk HL.
  - cbn [length] in HL. lia.
  - assert (HA := all_elim_In o n cs ls mn mx pen pa x (rn_min _ _ _ _ _ R)). cbv zeta in HA.
    set (ed := elim_decision o n (ri_of cs ls mn mx pen)) in *.
    destruct k as [|k]; cbn [nth_error] in Hk.
    + apply some_inj in Hk. subst rm. cbn [mk_meta im_all_eliminated]. rewrite HA. split.
      * intros [H|[H1 H2]]; [left; exact H|right]. exists 0%nat. eexists. split; [lia|]. split; [reflexivity|].
        cbn [mk_meta im_eliminated im_batch_elim]. subst e. split; [exact H1|]. intros Hp _. auto.
      * intros [H|(j&rmj&Hj&Ej&H1&H2)]; [left; exact H|right]. assert (j = 0%nat) by lia. subst j. cbn [nth_error] in Ej.
        apply some_inj in Ej. subst rmj. cbn [mk_meta im_eliminated im_batch_elim] in H1, H2. subst e. split; [exact H1|auto].
    + cbn [length] in HL. rewrite (IH k Hk) by lia. split.
      * intros [(s&Es&Hs)|(j&rmj&Hj&Ej&H1&_)].
        -- apply some_inj in Es. subst s. apply HA in Hs as [H|[H1 H2]]; [left; exact H|right].
           exists 0%nat. eexists. split; [lia|]. split; [reflexivity|]. cbn [mk_meta im_eliminated im_batch_elim].
           subst e. split; [exact H1|]. intros Hp _. auto.
        -- right. exists (S j), rmj. split; [lia|]. split; [exact Ej|]. split; [exact H1|]. intros; lia.
      * intros [H|(j&rmj&Hj&Ej&H1&H2)].
        -- left. eexists. split; [reflexivity|]. apply HA. left; exact H.
        -- destruct j as [|j]; cbn [nth_error] in Ej.
           ++ apply some_inj in Ej. subst rmj. cbn [mk_meta im_eliminated im_batch_elim] in H1, H2. left. eexists. split; [reflexivity|].
              apply HA. right. subst e. split; [exact H1|auto].
           ++ right. exists j, rmj. split; [lia|]. split; [exact Ej|]. split; [exact H1|discriminate].
Qed.

(** In a round that is not the last, all_eliminated lists everybody reported eliminated so far,
    except the members of a batch eliminated in the first round. *)
Theorem C27_all_eliminated_exact : forall o m d i rc rm x, schedule o -> irv_election m ->
  IRV_dict_from_jabmod o m = Ok d -> round d i rc rm -> ~ final d i ->
  (In x (im_all_eliminated rm) <->
   exists j rcj rmj, (j <= i)%nat /\ round d j rcj rmj /\ In x (im_eliminated rmj) /\
     ~ (j = 0%nat /\ im_batch_elim rmj = true)).
Proof.
  intros o m d i rc rm x Ho Hm E [Hr1 Hr2] Hnf.
  destruct (irv_run o m Ho Hm) as (d'&E'&T&_). rewrite E in E'. apply ok_inj in E'. subst d'.
  destruct (trace_lengths _ _ _ _ _ _ _ _ T) as [L _].
  assert (HL : (S i < length (ir_roundmeta d))%nat) by (apply nth_lt in Hr1; unfold final in Hnf; lia).
  rewrite (trace_all_elim _ _ _ _ _ _ _ _ i rm x T Hr2 HL). split.
  - intros [(s&Es&_)|(j&rmj&Hj&Ej&H1&H2)]; [discriminate|].
    destruct (nth_error (ir_rounds d) j) as [rcj|] eqn:Erj; [|apply nth_error_None in Erj; lia].
    exists j, rcj, rmj. split; [exact Hj|]. split; [split; assumption|]. split; [exact H1|].
    intros [-> Hb]. rewrite H2 in Hb by reflexivity. discriminate.
  - intros (j&rcj&rmj&Hj&[_ Ej]&H1&H2). right. exists j, rmj. split; [exact Hj|]. split; [exact Ej|]. split; [exact H1|].
    intros _ ->. destruct (im_batch_elim rmj); [exfalso; apply H2; auto|reflexivity].
Qed.
Print Assumptions C27_all_eliminated_exact.

(** The reported tie of a round: the candidates with the smallest count, if they are several. *)
Theorem C27_bottomtie_exact : forall o m d i rc rm, schedule o -> irv_election m ->
  IRV_dict_from_jabmod o m = Ok d -> round d i rc rm ->
  (im_bottomtie rm <> None <-> exists a b v, a <> b /\ dget a rc = Some v /\ dget b rc = Some v /\ forall c x, dget c rc = Some x -> v <= x) /\
  (forall tie c, im_bottomtie rm = Some tie ->
     (In c tie <-> exists v, dget c rc = Some v /\ forall b x, dget b rc = Some x -> v <= x)).
Proof.
  intros o m d i rc rm Ho Hm E Hr.
  destruct (irv_round_at anyP o m d i rc rm Ho Hm E Hr (anyP_step o) I) as (cs&ls&_&F).
  destruct F as (pa&mn&mx&pen&Hn&Hne&Hl&R&->&F).
  set (ed := elim_decision o (S i) (ri_of cs ls mn mx pen)) in *.
  assert (Ebt : im_bottomtie rm = ed_bottomtie ed).
  { destruct F as [(_&_&_&_&->)|(_&->&_)]; reflexivity. }
  rewrite Ebt. clear F Ebt.
  assert (Hget : forall c v, dget c (dmap cs (tally ls)) = Some v <-> In c cs /\ v = tally ls c).
  { intros c v. rewrite dget_dmap. destruct (memb c cs) eqn:Em.
    - apply memb_In in Em. split; [intro H; apply some_inj in H; auto|intros [_ ->]; reflexivity].
    - apply memb_nIn in Em. split; [discriminate|tauto]. }
  destruct (elim_spec o (S i) cs ls mn mx pen _ (rn_min _ _ _ _ _ R) eq_refl) as [_ [Hbne Hc]].
  cbv zeta in Hc. fold ed in Hc.
  set (bottom := filter (fun c => tally ls c =? mn) cs) in *.
  destruct (rn_min _ _ _ _ _ R) as [[cmin [Hcmin Emin]] Hmin].
  assert (Hb : forall c, In c bottom <-> exists v, dget c (dmap cs (tally ls)) = Some v /\
                forall b x, dget b (dmap cs (tally ls)) = Some x -> v <= x).
  { intro c. unfold bottom. rewrite filter_In. split.
    - intros [H1 H2]. exists (tally ls c). split; [apply Hget; auto|]. intros b x Hbx. apply Hget in Hbx as [Hbx ->].
      specialize (Hmin b Hbx). lia.
    - intros (v&Hv&Hlow). apply Hget in Hv as [Hv ->]. split; [exact Hv|]. specialize (Hlow cmin mn).
      assert (tally ls c <= mn) by (apply Hlow, Hget; auto). specialize (Hmin c Hv). lia. }
  assert (Hbn : NoDup bottom) by (apply NoDup_filter; exact Hn).
  assert (Htwo : (1 < length bottom)%nat <-> exists a b v, a <> b /\ dget a (dmap cs (tally ls)) = Some v /\ dget b (dmap cs (tally ls)) = Some v /\
                   forall c x, dget c (dmap cs (tally ls)) = Some x -> v <= x).
  { split.
    - intro L. destruct bottom as [|a [|b r]] eqn:Eb; cbn [length] in L; try lia.
      destruct (proj1 (Hb a) (or_introl eq_refl)) as (v&Ha&La). destruct (proj1 (Hb b) (or_intror (or_introl eq_refl))) as (w&Hw&Lw).
      assert (v = w) by (specialize (La _ _ Hw); specialize (Lw _ _ Ha); lia). subst w. exists a, b, v. split; [|auto].
      inversion Hbn as [|? ? Hni _]; subst. intros ->. apply Hni. left; reflexivity.
    - intros (a&b&v&Hab&Ha&Hbv&Hlow). assert (I1 : In a bottom) by (apply Hb; eauto). assert (I2 : In b bottom) by (apply Hb; eauto).
      destruct bottom as [|x [|y r]]; cbn [length]; [destruct I1| |lia].
      destruct I1 as [->|[]], I2 as [->|[]]. congruence. }
  rewrite <- Htwo. clearbody bottom.
  destruct Hc as [(Hlen&->)|[(Hlen&_&->)|(Hlen&_&x&_&->)]]; cbn [ed_bottomtie].
  - split; [split; [congruence|intro; lia]|discriminate].
  - split; [split; [auto|discriminate]|]. intros tie c Et. apply some_inj in Et. subst tie. apply Hb.
  - split; [split; [auto|discriminate]|]. intros tie c Et. apply some_inj in Et. subst tie. apply Hb.
Qed.
Print Assumptions C27_bottomtie_exact.

(** has_tie says that in some round two candidates shared the smallest count. *)
Theorem C27_has_tie_exact : forall o m d, schedule o -> irv_election m -> IRV_dict_from_jabmod o m = Ok d ->
  (ir_has_tie d = true <->
   exists i rc rm a b v, round d i rc rm /\ a <> b /\ dget a rc = Some v /\ dget b rc = Some v /\ forall c x, dget c rc = Some x -> v <= x).
Proof.
  intros o m d Ho Hm E.
  assert (Hd : ir_has_tie d = existsb (fun rm => match im_bottomtie rm with Some _ => true | None => false end) (ir_roundmeta d)).
  { clear Ho Hm. revert E. unfold IRV_dict_from_jabmod. destruct (irv_count _ _ _ _ _ _) as [[[w rs] ms]|]; [|discriminate]. cbn [bind].
    match goal with |- context [bind ?x _] => destruct x as [ws|] end; [|discriminate]. cbn [bind]. intro E. apply ok_inj in E. subst d. reflexivity. }
  rewrite Hd, existsb_exists. destruct (irv_run o m Ho Hm) as (d'&E'&T&_). rewrite E in E'. apply ok_inj in E'. subst d'.
  destruct (trace_lengths _ _ _ _ _ _ _ _ T) as [L _]. split.
  - intros (rm&Hin&Hs). apply In_nth_error in Hin as [i Hi]. destruct (nth_error (ir_rounds d) i) as [rc|] eqn:Er.
    2:{ apply nth_error_None in Er. apply nth_lt in Hi. lia. }
    assert (Hr : round d i rc rm) by (split; assumption). exists i, rc, rm.
    destruct (C27_bottomtie_exact o m d i rc rm Ho Hm E Hr) as [[H _] _]. destruct H as (a&b&v&H); [destruct (im_bottomtie rm); congruence|].
    exists a, b, v. split; assumption.
  - intros (i&rc&rm&a&b&v&Hr&H). exists rm. split; [eapply nth_error_In; exact (proj2 Hr)|].
    destruct (C27_bottomtie_exact o m d i rc rm Ho Hm E Hr) as [[_ K] _].
    destruct (im_bottomtie rm); [reflexivity|]. exfalso. apply K; [exists a, b, v; exact H|reflexivity].
Qed.
Print Assumptions C27_has_tie_exact.

(** winnerstr: the display names of the winners, in order of their tokens, joined by " and ". *)
Theorem C27_winnerstr_exact : forall o m d, schedule o -> irv_election m -> IRV_dict_from_jabmod o m = Ok d ->
  exists toks names, Permutation toks (ir_winner d) /\ StronglySorted (fun a b => str_leb a b = true) toks /\
    Forall2 (fun t n => dget t (j_candidates m) = Some n) toks names /\ ir_winnerstr d = join (u " and ") names.
Proof.
  intros o m d Ho Hm E. destruct (irv_run o m Ho Hm) as (d'&E'&T&_). rewrite E in E'. apply ok_inj in E'. subst d'.
  destruct (trace_winner _ _ _ _ _ _ _ _ Ho T) as (W1&_&_). clear Ho Hm T.
  revert E. unfold IRV_dict_from_jabmod. destruct (irv_count _ _ _ _ _ _) as [[[w rs] ms]|]; [|discriminate]. cbn [bind].
  destruct (Nat.ltb_spec 1 (length w)) as [L|L].
  - destruct (mapM _ (sort_str w)) as [names|] eqn:En; [|discriminate]. cbn [bind]. intro E. apply ok_inj in E. subst d. cbn [ir_winner ir_winnerstr].
    exists (sort_str w), names. split; [apply sort_by_perm|]. split; [apply sort_by_sorted; intros; [apply str_leb_total|eapply str_leb_trans; eassumption]|].
    split; [|reflexivity]. clear W1 L; revert names En. generalize (sort_str w). intro l. induction l as [|x l IH]; intros names En; cbn [mapM] in En.
    + apply ok_inj in En. subst names. constructor.
    + destruct (dgetE x (j_candidates m)) as [n|] eqn:Ex; [|discriminate]. cbn [bind] in En. destruct (mapM _ l) as [ns|]; [|discriminate].
      cbn [bind] in En. apply ok_inj in En. subst names. constructor; [|apply IH; reflexivity].
      unfold dgetE, of_option in Ex. destruct (dget x (j_candidates m)); [apply ok_inj in Ex; congruence|discriminate].
  - intro E. destruct w as [|x [|y w]]; cbn [length] in L; [|cbn [nth_error of_option bind] in E|lia].
    { cbn [nth_error of_option bind] in E. discriminate. }
    destruct (dgetE x (j_candidates m)) as [n|] eqn:Ex; [|discriminate]. cbn [bind] in E. apply ok_inj in E. subst d. cbn [ir_winner ir_winnerstr].
    exists [x], [n]. split; [apply Permutation_refl|]. split; [repeat constructor|]. split; [|reflexivity]. constructor; [|constructor].
    unfold dgetE, of_option in Ex. destruct (dget x (j_candidates m)); [apply ok_inj in Ex; congruence|discriminate].
Qed.
Print Assumptions C27_winnerstr_exact.

(** The three names mislead. *)
Definition exhaust_sample : jabmod := Jabmod [] [(A, u "a"); (B, u "b")]
  [ vl 3 [(A, ranked 1)]; vl 2 []; vl 1 [(B, ranked 1)] ].
Theorem C27_countedqty_refuted : exists m o d rc rm, schedule o /\ irv_election m /\ counts_ok m /\
  IRV_dict_from_jabmod o m = Ok d /\ round d 0 rc rm /\ zsum (dvals rc) = 4 /\ im_countedqty rm = 2.
Proof.
  exists exhaust_sample, o0. do 3 eexists. split; [exact o0_ok|]. split; [irv_elec|].
  split; [intros l Hl; simpl in Hl; intuition (subst; cbn; lia)|].
  split; [vm_compute; reflexivity|]. split; [split; vm_compute; reflexivity|]. split; reflexivity.
Qed.
Print Assumptions C27_countedqty_refuted.

Theorem C27_all_eliminated_refuted : exists m o d rc rm c, schedule o /\ irv_election m /\ counts_ok m /\
  IRV_dict_from_jabmod o m = Ok d /\ round d 0 rc rm /\ In c (im_eliminated rm) /\ im_all_eliminated rm = [].
Proof.
  exists irv_sample, o0. do 3 eexists. exists D. split; [exact o0_ok|]. split; [exact irv_sample_ok|]. split; [exact irv_sample_counts|].
  split; [vm_compute; reflexivity|]. split; [split; vm_compute; reflexivity|]. split; [vm_compute; auto|reflexivity].
Qed.
Print Assumptions C27_all_eliminated_refuted.

Theorem C27_winner_listed_as_eliminated_refuted : exists m o d rc rm w, schedule o /\ irv_election m /\ counts_ok m /\
  IRV_dict_from_jabmod o m = Ok d /\ round d 0 rc rm /\ In w (ir_winner d) /\ In w (im_all_eliminated rm).
Proof.
  exists tie_sample, o0. do 3 eexists. exists A. split; [exact o0_ok|]. split; [irv_elec|].
  split; [intros l Hl; simpl in Hl; intuition (subst; cbn; lia)|].
  split; [vm_compute; reflexivity|]. split; [split; vm_compute; reflexivity|]. split; vm_compute; auto.
Qed.
Print Assumptions C27_winner_listed_as_eliminated_refuted.

Theorem C27_top_and_bottom_refuted : exists m o d rc rm, schedule o /\ irv_election m /\ counts_ok m /\
  IRV_dict_from_jabmod o m = Ok d /\ round d 0 rc rm /\ im_top_voteqty rm < im_bottom_voteqty rm.
Proof.
  exists irv_sample, o0. do 3 eexists. split; [exact o0_ok|]. split; [exact irv_sample_ok|]. split; [exact irv_sample_counts|].
  split; [vm_compute; reflexivity|]. split; [split; vm_compute; reflexivity|]. vm_compute. reflexivity.
Qed.
Print Assumptions C27_top_and_bottom_refuted.

Example C27_has_tie_nonvacuous : exists d, IRV_dict_from_jabmod o0 irv_sample = Ok d /\ ir_has_tie d = true /\
  exists rm, nth_error (ir_roundmeta d) 0 = Some rm /\ im_bottomtie rm = Some [D; E] /\ ir_winnerstr d = u "Bob".
Proof. eexists. split; [vm_compute; reflexivity|]. split; [vm_compute; reflexivity|]. eexists. split; [vm_compute; reflexivity|]. split; vm_compute; reflexivity. Qed.
