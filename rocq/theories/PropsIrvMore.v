(** * Properties C66, C67: how IRV reacts to changed and added ballots (abiflib/irvtally.py) *)

From Verif Require Import PyBase PyFacts Jabmod PairwiseModel Spec PairwiseFacts IrvModel IrvFacts IrvStrict IrvTrace IrvCriteria
  IrvMonotone PropsPairwise PropsIrv.
Local Open Scope Z_scope.

(** ** C66: later-no-harm and later-no-help *)

(** Two elections with the same candidates whose votelines, paired up in order, have the same number of
    ballots, list or omit [w] alike, put the same candidates above [w] and order those the same way.
    What comes below [w] is unrelated. *)
Definition differ_only_below (w : str) (m m' : jabmod) : Prop :=
  j_candidates m = j_candidates m' /\
  Forall2 (fun l l' => v_qty l = v_qty l' /\ lists l w = lists l' w /\
             (forall c, prefers l c w = prefers l' c w) /\
             (forall c d, prefers l c w = true -> prefers l d w = true -> prefers l c d = prefers l' c d))
    (j_votelines m) (j_votelines m').

Lemma differ_sym w m m' : differ_only_below w m m' -> differ_only_below w m' m.
Proof.
  intros [E F]. split; [auto|]. clear E. revert F. generalize (j_votelines m) (j_votelines m').
  induction 1 as [|l l' r r' H F IH]; constructor; [|exact IH]. apply (same_down_to_sym w l l' H).
Qed.

(** If [w] is among the winners, rewriting ballots below [w] changes nothing at all: same winners, same
    rounds, same figures. *)
Theorem C66_later_no_harm : forall o m m' d w, schedule o ->
  irv_election m -> strict_election m -> irv_election m' -> strict_election m' ->
  differ_only_below w m m' ->
  IRV_dict_from_jabmod o m = Ok d -> In w (ir_winner d) ->
  IRV_dict_from_jabmod o m' = Ok d.
Proof.
  intros o m m' d w Ho (Hn&Hne&Hl) Hs (_&_&Hl') Hs' [Ec F] E Hw.
  assert (Ecs : cands m' = cands m) by (unfold cands; rewrite Ec; reflexivity). rewrite Ecs in Hl'.
  unfold IRV_dict_from_jabmod in *. rewrite <- Ec.
  change (dkeys (j_candidates m)) with (cands m) in *.
  destruct (irv_count (S (length (cands m))) o 1 None (cands m) (j_votelines m)) as [[[W rs] ms]|] eqn:E1; [|discriminate].
  cbn [bind] in E.
  assert (HwW : In w W).
  { match type of E with bind ?x _ = _ => destruct x as [ws|]; [|discriminate] end.
    cbn [bind] in E. apply ok_inj in E. subst d. exact Hw. }
  rewrite (same_count o (S (length (cands m))) 1 None (cands m) (j_votelines m) (j_votelines m') w W rs ms
             Ho Hn Hne (fun l Hll => Hl l Hll) (fun l Hll => Hl' l Hll) Hs Hs' (Nat.le_succ_diag_r _) F E1 HwW).
  cbn [bind]. exact E.
Qed.
Print Assumptions C66_later_no_harm.

(** So what a voter writes below [w] can neither stop [w] from winning nor help it win. *)
Theorem C66_later_no_help : forall o m m' d d' w, schedule o ->
  irv_election m -> strict_election m -> irv_election m' -> strict_election m' ->
  differ_only_below w m m' ->
  IRV_dict_from_jabmod o m = Ok d -> IRV_dict_from_jabmod o m' = Ok d' ->
  (In w (ir_winner d) <-> In w (ir_winner d')).
Proof.
  intros o m m' d d' w Ho Hm Hs Hm' Hs' D E E'. split; intro Hw.
  - rewrite (C66_later_no_harm o m m' d w Ho Hm Hs Hm' Hs' D E Hw) in E'. apply ok_inj in E'. subst d'. exact Hw.
  - rewrite (C66_later_no_harm o m' m d' w Ho Hm' Hs' Hm Hs (differ_sym _ _ _ D) E' Hw) in E. apply ok_inj in E. subst d. exact Hw.
Qed.
Print Assumptions C66_later_no_help.

(** The sample election of PropsIrv, won by B, and a variant: the B voters drop their second choice, the
    A voters rank D and E behind B. *)
Definition below_sample : jabmod := Jabmod []
  [(A, u "Ann"); (B, u "Bob"); (C, u "Cy"); (D, u "Di"); (E, u "Ed")]
  [ vl 7 [(E, ranked 9); (A, ranked 1); (B, ranked 2); (D, ranked 4)];
    vl 5 [(B, ranked 1)];
    vl 2 [(C, ranked 3); (B, ranked 4)];
    vl 1 [(D, ranked 1); (B, ranked 2); (A, ranked 3)];
    vl 1 [(E, ranked 1)] ].
Lemma prefers_unlisted l c d : lists l c = false -> prefers l c d = false.
Proof. unfold lists, prefers, rank_on. destruct (dget c (v_prefs l)); [discriminate|reflexivity]. Qed.
Example C66_sample : differ_only_below B irv_sample below_sample /\ irv_election below_sample /\ strict_election below_sample /\
  match IRV_dict_from_jabmod o0 below_sample with Ok d => ir_winner d = [B] | Err _ => False end /\
  j_votelines irv_sample <> j_votelines below_sample.
Proof.
  assert (HK : forall X : str, X = A \/ X = B \/ X = C \/ X = D \/ X = E \/
     (str_eqb X A = false /\ str_eqb X B = false /\ str_eqb X C = false /\ str_eqb X D = false /\ str_eqb X E = false)).
  { intro X. destruct (str_eqb_spec X A), (str_eqb_spec X B), (str_eqb_spec X C), (str_eqb_spec X D), (str_eqb_spec X E); auto 7.
    right; right; right; right; right. auto. }
  split; [split; [reflexivity|]|split; [irv_elec|split; [strict_elec|split; [vm_compute; reflexivity|discriminate]]]].
  assert (HU : forall X ls, str_eqb X A = false /\ str_eqb X B = false /\ str_eqb X C = false /\ str_eqb X D = false /\ str_eqb X E = false ->
     forall q, incl (map fst ls) [A; B; C; D; E] -> lists (vl q ls) X = false).
  { intros X ls (E1&E2&E3&E4&E5) q Hi. destruct (lists (vl q ls) X) eqn:El; [|reflexivity]. apply lists_In, Hi in El.
    destruct El as [<-|[<-|[<-|[<-|[<-|[]]]]]]; rewrite str_eqb_refl in *; discriminate. }
  cbn [j_votelines irv_sample below_sample].
  repeat (constructor; [split; [reflexivity|split; [reflexivity|split]];
    [ intro c; destruct (HK c) as [->|[->|[->|[->|[->|Hc]]]]]; try reflexivity;
      rewrite !prefers_unlisted by (apply HU; [exact Hc|intros x Hx; simpl in *; intuition]); reflexivity
    | intros c d Hc Hd; destruct (HK c) as [->|[->|[->|[->|[->|Hcc]]]]]; try discriminate Hc;
      try (rewrite prefers_unlisted in Hc by (apply HU; [exact Hcc|intros x Hx; simpl in *; intuition]); discriminate Hc);
      destruct (HK d) as [->|[->|[->|[->|[->|Hdc]]]]]; try discriminate Hd; try reflexivity;
      rewrite prefers_unlisted in Hd by (apply HU; [exact Hdc|intros x Hx; simpl in *; intuition]); discriminate Hd ]|]).
  constructor.
Qed.

(** ** C67: more first places *)

(** Adding ballots that put the sole winner first keeps it the sole winner, provided the count had no
    tie for last place to break before its final round. *)
Theorem C67_more_first_places : forall o m d w extra, schedule o ->
  irv_election m -> strict_election m ->
  IRV_dict_from_jabmod o m = Ok d -> ir_winner d = [w] ->
  (forall i rc rm, round d i rc rm -> ~ final d i -> im_bottomtie rm = None) ->
  irv_election (Jabmod (j_metadata m) (j_candidates m) extra) ->
  strict_election (Jabmod (j_metadata m) (j_candidates m) extra) ->
  (forall l, In l extra -> 0 <= v_qty l /\ lists l w = true /\ forall c, c = w \/ prefers l w c = true) ->
  exists d', IRV_dict_from_jabmod o (Jabmod (j_metadata m) (j_candidates m) (j_votelines m ++ extra)) = Ok d' /\
    ir_winner d' = [w].
Proof.
  intros o m d w ex Ho Hm Hs E Hw Ht Hx Hsx Hex.
  assert (Hm' : irv_election (Jabmod (j_metadata m) (j_candidates m) (j_votelines m ++ ex))).
  { destruct Hm as (H1&H2&H3), Hx as (_&_&H6). split; [exact H1|]. split; [exact H2|]. intros l Hl.
    apply in_app_or in Hl as [Hl|Hl]; [apply H3|apply H6]; exact Hl. }
  destruct (irv_run o m Ho Hm) as (x&Ex&T&_). rewrite E in Ex. apply ok_inj in Ex. subst x. rewrite Hw in T.
  destruct (irv_run o _ Ho Hm') as (d'&E'&T'&_). exists d'. split; [exact E'|].
  destruct (trace_lengths _ _ _ _ _ _ _ _ T) as [L _].
  eapply (add_top_trace o 1 None (cands m) (j_votelines m) w (ir_rounds d) (ir_roundmeta d) Ho T Hs); [|split; [|split]|exact T'].
  - intros k rm Hk HL. destruct (nth_error (ir_rounds d) k) as [rc|] eqn:Er.
    + apply (Ht k rc rm); [split; assumption|]. unfold final. lia.
    + apply nth_error_None in Er. lia.
  - intros l Hl. destruct Hx as (_&_&H). apply H; exact Hl.
  - exact Hsx.
  - intros l Hl. destruct (Hex l Hl) as (H1&H2&H3). split; [split; assumption|exact H1].
Qed.
Print Assumptions C67_more_first_places.

Definition plump_sample : jabmod := Jabmod []
  [(A, u "Ann"); (B, u "Bob"); (C, u "Cy")]
  [ vl 7 [(A, ranked 1); (B, ranked 2)]; vl 5 [(B, ranked 1); (C, ranked 2)]; vl 4 [(C, ranked 1); (B, ranked 2)] ].
Definition plump_extra : list voteline := [ vl 3 [(B, ranked 2); (C, ranked 5)]; vl 1 [(B, ranked 1)] ].
Example C67_sample : irv_election plump_sample /\ strict_election plump_sample /\
  irv_election (Jabmod [] (j_candidates plump_sample) plump_extra) /\
  strict_election (Jabmod [] (j_candidates plump_sample) plump_extra) /\
  exists d, IRV_dict_from_jabmod o0 plump_sample = Ok d /\ ir_winner d = [B] /\
    map im_bottomtie (ir_roundmeta d) = [None; None].
Proof.
  split; [irv_elec|]. split; [strict_elec|]. split; [irv_elec|]. split; [strict_elec|].
  eexists. split; [vm_compute; reflexivity|]. split; reflexivity.
Qed.

(** Other comforts are not to be had.  Raising the winner on some ballots, everything else untouched,
    can make it lose ... *)
Definition mono_before : jabmod := Jabmod [] [(A, u "a"); (B, u "b"); (C, u "c")]
  [ vl 39 [(A, ranked 1); (B, ranked 2); (C, ranked 3)];
    vl 10 [(B, ranked 1); (A, ranked 2); (C, ranked 3)];
    vl 25 [(B, ranked 1); (C, ranked 2); (A, ranked 3)];
    vl 26 [(C, ranked 1); (A, ranked 2); (B, ranked 3)] ].
Definition mono_after : jabmod := Jabmod [] [(A, u "a"); (B, u "b"); (C, u "c")]
  [ vl 39 [(A, ranked 1); (B, ranked 2); (C, ranked 3)];
    vl 10 [(A, ranked 1); (B, ranked 2); (C, ranked 3)];
    vl 25 [(B, ranked 1); (C, ranked 2); (A, ranked 3)];
    vl 26 [(C, ranked 1); (A, ranked 2); (B, ranked 3)] ].
Theorem C67_monotonicity_refuted : exists o m m' d d' w, schedule o /\
  irv_election m /\ strict_election m /\ counts_ok m /\ irv_election m' /\ strict_election m' /\
  j_candidates m = j_candidates m' /\
  Forall2 (fun l l' => v_qty l = v_qty l' /\ (forall c, prefers l w c = true -> prefers l' w c = true) /\
             (forall c d, c <> w -> d <> w -> prefers l c d = prefers l' c d))
    (j_votelines m) (j_votelines m') /\
  IRV_dict_from_jabmod o m = Ok d /\ IRV_dict_from_jabmod o m' = Ok d' /\
  ir_winner d = [w] /\ ~ In w (ir_winner d') /\
  (forall rm, In rm (ir_roundmeta d ++ ir_roundmeta d') -> im_bottomtie rm = None).
Proof.
  exists o0, mono_before, mono_after. do 2 eexists. exists A.
  split; [exact o0_ok|]. split; [irv_elec|]. split; [strict_elec|].
  split; [intros l Hl; simpl in Hl; intuition (subst; cbn; lia)|]. split; [irv_elec|]. split; [strict_elec|].
  split; [reflexivity|]. split.
  { cbn [j_votelines mono_before mono_after]. repeat constructor; try (intros; assumption).
    - intros c H. unfold prefers, rank_on in *. cbn [vl v_prefs dget] in *.
      destruct (str_eqb c A) eqn:EA, (str_eqb c B) eqn:EB, (str_eqb c C) eqn:EC; cbn in *;
        repeat match goal with X : str_eqb _ _ = true |- _ => apply str_eqb_eq in X end; subst; try discriminate; reflexivity.
    - intros c d Hc Hd. unfold prefers, rank_on in *. cbn [vl v_prefs dget] in *.
      apply str_eqb_neq in Hc, Hd. rewrite Hc, Hd.
      destruct (str_eqb c B), (str_eqb c C), (str_eqb d B), (str_eqb d C); reflexivity. }
  split; [vm_compute; reflexivity|]. split; [vm_compute; reflexivity|]. split; [reflexivity|]. split.
  - vm_compute. intuition discriminate.
  - intros rm H. cbn in H. repeat (destruct H as [<-|H]; [reflexivity|]). destruct H.
Qed.
Print Assumptions C67_monotonicity_refuted.

(** ... and voters who rank the winner above another candidate can hand that other candidate the
    election by taking part. *)
Definition noshow_before : jabmod := Jabmod [] [(A, u "a"); (B, u "b"); (C, u "c")]
  [ vl 5 [(A, ranked 1); (B, ranked 2); (C, ranked 3)];
    vl 6 [(B, ranked 1); (A, ranked 2); (C, ranked 3)];
    vl 4 [(C, ranked 1); (A, ranked 2); (B, ranked 3)] ].
Definition noshow_voters : voteline := vl 2 [(C, ranked 1); (A, ranked 2); (B, ranked 3)].
Theorem C67_participation_refuted : exists o m l d d' a x, schedule o /\
  irv_election m /\ strict_election m /\ counts_ok m /\
  prefers l a x = true /\ 0 < v_qty l /\
  IRV_dict_from_jabmod o m = Ok d /\
  IRV_dict_from_jabmod o (Jabmod (j_metadata m) (j_candidates m) (j_votelines m ++ [l])) = Ok d' /\
  irv_election (Jabmod (j_metadata m) (j_candidates m) (j_votelines m ++ [l])) /\
  strict_election (Jabmod (j_metadata m) (j_candidates m) (j_votelines m ++ [l])) /\
  ir_winner d = [a] /\ ir_winner d' = [x].
Proof.
  exists o0, noshow_before, noshow_voters. do 2 eexists. exists A, B.
  split; [exact o0_ok|]. split; [irv_elec|]. split; [strict_elec|].
  split; [intros l Hl; simpl in Hl; intuition (subst; cbn; lia)|]. split; [reflexivity|]. split; [reflexivity|].
  split; [vm_compute; reflexivity|]. split; [vm_compute; reflexivity|].
  unfold noshow_voters. split; [irv_elec|]. split; [strict_elec|]. split; reflexivity.
Qed.
Print Assumptions C67_participation_refuted.
