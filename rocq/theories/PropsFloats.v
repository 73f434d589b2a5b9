(** * PropsFloats: C97, the scaled scores as Python's floats compute them *)

From Coq Require Import Lia Permutation QArith Qround Qpower Qabs Lqa.
From Verif Require Import PyBase PyFacts Jabmod PairwiseModel Spec PairwiseFacts PropsPairwise ScoreModel ScoreFacts PropsScore Regex ParserModel ParserSpec ParserFacts PropsParser FloatModel FloatFacts.
Local Open Scope Z_scope.

(** ** The rounding of the model is the rounding of IEEE 754 *)
(** A number that a float with an unlimited exponent can hold: at most 53 bits times a power of two. *)
Definition float53 (y : Q) : Prop := exists n e : Z, - 2 ^ 53 <= n <= 2 ^ 53 /\ (y == inject_Z n * 2 ^ e)%Q.
(** [fl x] is a float, no float is nearer to x, of two that are equally near it is the one with an even last bit; a float is its own rounding. *)
Theorem C97_float : forall x : Q, float53 (fl x) /\ (forall y, float53 y -> Qabs (fl x - x) <= Qabs (y - x))%Q /\
  (~ (x == 0)%Q -> exists n e : Z, (fl x == inject_Z n * 2 ^ e)%Q /\ (2 ^ (e + 52) <= Qabs x)%Q /\ ((Qabs (fl x - x) == (1 # 2) * 2 ^ e)%Q -> Z.even n = true)) /\
  (float53 x -> (fl x == x)%Q).
Proof.
  intro x. destruct (fl_bits x) as (n&e&H1&H2&H3&H4). split; [exists n, e; auto|]. split; [|split].
  - intros y (n'&e'&Hn&E). rewrite (Qabs_wd (y - x) (inject_Z n' * 2 ^ e' - x)) by (rewrite E; reflexivity). apply fl_nearest, Hn.
  - intro Nx. exists n, e. auto.
  - intros (n'&e'&Hn&E). rewrite (fl_eq x _ E), E. apply fl_exact, Hn.
Qed.
Print Assumptions C97_float.

(** ** The scaled scores *)
(** The sum of all scores of an election. *)
Definition all_scores (m : jabmod) : Z := zsum (map (total_score m) (cands m)).
(** The share of the target that is due to a score. *)
Definition share (m : jabmod) (target score : Z) : Q := (inject_Z score * inject_Z target / inject_Z (all_scores m))%Q.

Lemma float_sum (f : str * str -> scaledinfo) (due : str * str -> Q) l acc y i : (forall kv, In kv l -> near 2 (sc_scaled (f kv)) (due kv)) -> near i acc y -> 2 <= i -> i + Z.of_nat (length l) <= 2 ^ 51 ->
  near (i + Z.of_nat (length l)) (fold_left (fun a (kv : str * scaledinfo) => fl (a + sc_scaled (snd kv))%Q) (map (fun kv => (fst kv, f kv)) l) acc) (fold_left (fun a kv => a + due kv)%Q l y).
Proof.
  revert acc y i. induction l as [|kv l IH]; intros acc y i H N L1 L2; cbn [map fold_left length] in *; [rewrite Z.add_0_r; exact N|].
  replace (i + Z.of_nat (S (length l))) with (i + 1 + Z.of_nat (length l)) by lia. apply IH; [intros; apply H; right; assumption| |lia|lia].
  apply near_fl; [lia|]. apply near_add; [exact N|]. apply near_weaken with 2; [apply H; left; reflexivity|exact L1].
Qed.
Lemma due_sum m (s : Q) l acc : (fold_left (fun a (kv : str * str) => a + inject_Z (total_score m (fst kv)) * s) l acc == acc + inject_Z (zsum (map (total_score m) (map fst l))) * s)%Q.
Proof.
  revert acc. induction l as [|kv l IH]; intro acc; cbn [fold_left map zsum]; [change (inject_Z 0) with 0%Q; ring|]. rewrite IH, inject_Z_plus. ring.
Qed.
Lemma zsum_ge l x : (forall y, In y l -> 0 <= y) -> In x l -> x <= zsum l.
Proof.
  induction l as [|y l IH]; intros H Hx; [destruct Hx|]. cbn [zsum]. assert (0 <= zsum l) by (clear -H; induction l as [|z l IH]; cbn [zsum]; [lia|]; assert (0 <= z) by (apply H; right; left; reflexivity); assert (0 <= zsum l) by (apply IH; intros t [->|Ht]; apply H; [left|right; right]; auto); lia).
  destruct Hx as [->|Hx]; [lia|]. assert (x <= zsum l) by (apply IH; [intros; apply H; right; assumption|exact Hx]). assert (0 <= y) by (apply H; left; reflexivity). lia.
Qed.

(** The numbers of [scaled_floats], without the calls that cannot fail. *)
Definition float_scale (m : jabmod) (target : Z) : Q := fl (inject_Z target / inject_Z (all_scores m)).
Definition float_item (m : jabmod) (target : Z) (kv : str * str) : scaledinfo := ScaledInfo (snd kv) (fl (fl (inject_Z (total_score m (fst kv))) * float_scale m target)) (total_score m (fst kv)).
Definition float_items (m : jabmod) (target : Z) : dict scaledinfo := map (fun kv => (fst kv, float_item m target kv)) (j_candidates m).
Lemma floats_ok m bc target : scorable m -> tallyable m -> dget k_ballotcount (j_metadata m) = Some (JInt bc) -> (2 <= length (cands m))%nat -> all_scores m <> 0 ->
  scaled_floats m target = Ok (ScaledRes (dget k_max_rating (j_metadata m)) (all_scores m) (float_scale m target) (float_items m target) (fold_left (fun acc kv => fl (acc + sc_scaled (snd kv))) (float_items m target) 0%Q)).
Proof.
  intros Hs Ht Hb Hl Hnz.
  assert (P : Permutation (score_order m) (cands m)) by apply sort_desc_perm.
  destruct (score_order m) as [|f1 [|f2 rest]] eqn:Ho; [apply Permutation_length in P; cbn in P; lia|apply Permutation_length in P; cbn in P; lia|].
  unfold scaled_floats. rewrite (star_ok m bc f1 f2 rest Hs Ht Hb Ho). cbn [bind st_base sr_total_all_scores sr_scores]. unfold dgetE at 1. rewrite Hb. cbn [of_option bind]. fold (all_scores m).
  destruct (Z.eqb_spec (all_scores m) 0) as [E|_]; [lia|]. fold (float_scale m target).
  rewrite (mapM_ok _ (fun kv => (fst kv, float_item m target kv))).
  2:{ intros [k v] Hk. cbn [fst snd]. unfold dgetE. rewrite dget_dmap. rewrite (proj2 (memb_In k (cands m))); [reflexivity|]. change k with (fst (k, v)). apply in_map; exact Hk. }
  cbn [bind]. fold (float_items m target). pose proof (proj1 Hs) as Hnd.
  assert (F : fold_left (fun d kv => dset (fst kv) (snd kv) d) (float_items m target) [] = float_items m target).
  { unfold float_items at 1. rewrite (fold_dset_nodup (fun kv => snd kv)) by (rewrite map_map; exact Hnd). cbn [app]. rewrite map_map. reflexivity. }
  rewrite F. reflexivity.
Qed.
Section Run.
  Variables (m : jabmod) (target : Z).
  Hypothesis Hnn : forall c, In c (cands m) -> 0 <= total_score m c.
  Hypothesis Htot : 0 < all_scores m < 2 ^ 53.
  Hypothesis Htg : 0 < target < 2 ^ 53.
  Let due (kv : str * str) : Q := (inject_Z (total_score m (fst kv)) * (inject_Z target / inject_Z (all_scores m)))%Q.
  Lemma total_pos : (0 < inject_Z (all_scores m))%Q. Proof. apply (inj_lt 0), Htot. Qed.
  Lemma target_pos : (0 < inject_Z target)%Q. Proof. apply (inj_lt 0), Htg. Qed.
  Lemma exact_pos : (0 < inject_Z target / inject_Z (all_scores m))%Q.
  Proof. apply Qlt_shift_div_l; [exact total_pos|]. rewrite Qmult_0_l. exact target_pos. Qed.
  Lemma scale_near : near 1 (float_scale m target) (inject_Z target / inject_Z (all_scores m)).
  Proof. apply (near_fl 0); [lia|]. apply near_refl. apply Qlt_le_weak, exact_pos. Qed.
  Lemma scale_pos : (0 < float_scale m target)%Q.
  Proof. pose proof exact_pos. destruct (near_bounds 1 _ _ ltac:(lia) scale_near) as (B&_). lra. Qed.
  Lemma score_small c : In c (cands m) -> 0 <= total_score m c < 2 ^ 53.
  Proof.
    intro Hc. split; [apply Hnn, Hc|]. assert (total_score m c <= all_scores m); [|lia]. apply zsum_ge; [intros y Hy; apply in_map_iff in Hy as (d&<-&Hd); apply Hnn, Hd|apply in_map, Hc].
  Qed.
  Lemma score_exact c : In c (cands m) -> (fl (inject_Z (total_score m c)) == inject_Z (total_score m c))%Q.
  Proof. intro Hc. apply fl_int. pose proof (score_small c Hc). lia. Qed.
  Lemma item_near kv : In kv (j_candidates m) -> near 2 (sc_scaled (float_item m target kv)) (due kv).
  Proof.
    intro Hkv. assert (Hc : In (fst kv) (cands m)) by (apply in_map, Hkv). unfold float_item, due. cbn [sc_scaled]. apply (near_fl 1); [lia|].
    apply (near_eq 1 (inject_Z (total_score m (fst kv)) * float_scale m target) _ (inject_Z (total_score m (fst kv)) * (inject_Z target / inject_Z (all_scores m)))); [|rewrite (score_exact _ Hc); reflexivity|reflexivity].
    apply near_mul; [|exact scale_near]. change 0%Q with (inject_Z 0). apply inj_le, Hnn, Hc.
  Qed.
  Lemma sum_near l : incl l (j_candidates m) -> 2 + Z.of_nat (length l) <= 2 ^ 51 ->
    near (2 + Z.of_nat (length l)) (fold_left (fun acc (kv : str * scaledinfo) => fl (acc + sc_scaled (snd kv))) (map (fun kv => (fst kv, float_item m target kv)) l) 0%Q)
      (inject_Z (zsum (map (total_score m) (map fst l))) * (inject_Z target / inject_Z (all_scores m))).
  Proof.
    intros I L. assert (N0 : near 2 0 0) by (apply near_weaken with 0; [apply near_refl; lra|lia]). pose proof (float_sum (float_item m target) due l 0 0 2 (fun kv Hkv => item_near kv (I kv Hkv)) N0 ltac:(lia) L) as S1.
    refine (near_eq _ _ _ _ _ S1 (Qeq_refl _) _). unfold due. rewrite due_sum. ring.
  Qed.
End Run.

(** The scaled scores of an election whose scores are not negative and add up to less than 2^53: an entry for each candidate in order; each is within one part in 2^51 of the candidate's share; the
    same score is scaled to the same number, a higher score to a higher one (up to 2^52); and the total is off the target by at most n + 2 parts in 2^52. *)
Theorem C97_scaled : forall m bc target, scorable m -> tallyable m -> dget k_ballotcount (j_metadata m) = Some (JInt bc) ->
  (2 <= length (cands m))%nat -> Z.of_nat (length (cands m)) < 2 ^ 50 -> (forall c, In c (cands m) -> 0 <= total_score m c) -> 0 < all_scores m < 2 ^ 53 -> 0 < target < 2 ^ 53 ->
  exists res, scaled_floats m target = Ok res /\ sc_total_all_scores res = all_scores m /\ map fst (sc_canddict res) = cands m /\
    (forall c, In c (cands m) -> exists si, dget c (sc_canddict res) = Some si /\ Some (sc_candname si) = dget c (j_candidates m) /\ sc_score si = total_score m c /\
       (Qabs (sc_scaled si - share m target (total_score m c)) <= share m target (total_score m c) * 2 ^ (-51))%Q) /\
    (forall a b sa sb, dget a (sc_canddict res) = Some sa -> dget b (sc_canddict res) = Some sb ->
       (sc_score sa = sc_score sb -> (sc_scaled sa == sc_scaled sb)%Q) /\ (sc_score sa < sc_score sb < 2 ^ 52 -> (sc_scaled sa < sc_scaled sb)%Q) /\ (sc_score sa <= sc_score sb -> (sc_scaled sa <= sc_scaled sb)%Q)) /\
    (Qabs (sc_scaled_total res - inject_Z target) <= inject_Z target * (inject_Z (Z.of_nat (length (cands m)) + 2) * 2 ^ (-52)))%Q.
Proof.
  intros m bc target Hs Ht Hb Hl Hn Hnn Htot Htg. eexists. split; [apply (floats_ok m bc); try assumption; lia|]. cbn [sc_total_all_scores sc_canddict sc_scaled_total]. split; [reflexivity|]. pose proof (proj1 Hs) as Hnd.
  assert (Ek : map fst (float_items m target) = cands m) by (unfold float_items; rewrite map_map; reflexivity). split; [exact Ek|].
  assert (In_item : forall c si, dget c (float_items m target) = Some si -> exists v, In (c, v) (j_candidates m) /\ si = float_item m target (c, v)).
  { intros c si H. apply dget_In in H. apply in_map_iff in H as ([c' v]&E&Hin). injection E as <- <-. exists v. split; [exact Hin|reflexivity]. }
  pose proof (scale_pos m target Htot Htg) as Ps. pose proof (score_small m Hnn Htot) as Sm. pose proof (score_exact m Hnn Htot) as Ex.
  split; [|split].
  - intros c Hc. apply dget_Some_In in Hc as [v Hv]. exists (float_item m target (c, v)). assert (Hin : In (c, v) (j_candidates m)) by (apply dget_In, Hv). split; [apply dget_In_nodup; [unfold dkeys; rewrite Ek; exact Hnd|]; apply in_map_iff; exists (c, v); split; [reflexivity|exact Hin]|].
    split; [symmetry; exact Hv|]. split; [reflexivity|]. destruct (item_near m target Hnn Htot Htg _ Hin) as (_&H). cbn [fst] in H. unfold share.
    assert (E : (inject_Z (total_score m c) * inject_Z target / inject_Z (all_scores m) == inject_Z (total_score m c) * (inject_Z target / inject_Z (all_scores m)))%Q) by (unfold Qdiv; ring). rewrite E. assert (W : (2 ^ (-51) == inject_Z 2 * 2 ^ (-52))%Q) by reflexivity. rewrite W. exact H.
  - intros a b sa sb Ha Hb'. destruct (In_item a sa Ha) as (va&Ia& ->). destruct (In_item b sb Hb') as (vb&Ib& ->). assert (Ca : In a (cands m)) by (change a with (fst (a, va)); apply in_map, Ia). assert (Cb : In b (cands m)) by (change b with (fst (b, vb)); apply in_map, Ib).
    unfold float_item. cbn [sc_score sc_scaled fst snd]. pose proof (Sm a Ca) as Sa. pose proof (Sm b Cb) as Sb. set (sc := float_scale m target) in *. split; [|split].
    + intro E. rewrite E. reflexivity.
    + intros (L1&L2). rewrite (fl_eq _ (inject_Z (total_score m a) * sc)) by (rewrite (Ex a Ca); reflexivity). rewrite (fl_eq (fl (inject_Z (total_score m b)) * sc) (inject_Z (total_score m b) * sc)) by (rewrite (Ex b Cb); reflexivity). apply fl_strict; [exact Ps|lia|lia].
    + intro L. apply fl_mono. rewrite (Ex a Ca), (Ex b Cb). apply Qmult_le_r; [exact Ps|]. apply inj_le, L.
  - unfold cands in Hn. rewrite map_length in Hn. pose proof (sum_near m target Hnn Htot Htg (j_candidates m) (fun x H => H) ltac:(lia)) as S1. fold (float_items m target) in S1. fold (cands m) in S1. fold (all_scores m) in S1.
    apply (near_eq _ _ (fold_left (fun acc (kv : str * scaledinfo) => fl (acc + sc_scaled (snd kv))) (float_items m target) 0%Q) _ (inject_Z target)) in S1; [destruct S1 as (_&S1); unfold cands at 1; rewrite map_length, (Z.add_comm (Z.of_nat (length (j_candidates m)))); exact S1|reflexivity|].
    field. pose proof (total_pos m Htot). lra.
Qed.
Print Assumptions C97_scaled.

(** No number of the computation (the factor, the scaled scores, the sums after each candidate) is below 2^-53 or above 2^54 unless it is 0: binary64 reaches from 2^-1022 to 2^1024, so its limits are not met. *)
Definition in_range (x : Q) : Prop := (x == 0)%Q \/ (2 ^ (-53) <= x /\ x <= 2 ^ 54)%Q.
Theorem C97_range : forall m bc target res, scorable m -> tallyable m -> dget k_ballotcount (j_metadata m) = Some (JInt bc) ->
  (2 <= length (cands m))%nat -> Z.of_nat (length (cands m)) < 2 ^ 50 -> (forall c, In c (cands m) -> 0 <= total_score m c) -> 0 < all_scores m < 2 ^ 53 -> 0 < target < 2 ^ 53 ->
  scaled_floats m target = Ok res ->
  in_range (sc_scale_factor res) /\ (forall c si, dget c (sc_canddict res) = Some si -> in_range (sc_scaled si)) /\ in_range (sc_scaled_total res) /\
  (forall k, in_range (fold_left (fun acc kv => fl (acc + sc_scaled (snd kv))) (firstn k (sc_canddict res)) 0%Q)).
Proof.
  intros m bc target res Hs Ht Hb Hl Hn Hnn Htot Htg E. rewrite (floats_ok m bc target Hs Ht Hb Hl ltac:(lia)) in E. apply ok_inj in E. subst res. cbn [sc_scale_factor sc_canddict sc_scaled_total].
  pose proof (total_pos m Htot) as T0. pose proof (target_pos target Htg) as G0. pose proof (inj_lt _ _ (proj2 Htot)) as T1. pose proof (inj_lt _ _ (proj2 Htg)) as G1. rewrite p2_Z in T1, G1 by lia.
  assert (T2 : (1 <= inject_Z (all_scores m))%Q) by (apply (inj_le 1); lia). assert (G2 : (1 <= inject_Z target)%Q) by (apply (inj_le 1); lia).
  assert (Q1 : (2 ^ (-53) <= inject_Z target / inject_Z (all_scores m))%Q).
  { apply div_le; [exact T0|]. assert (V : (2 ^ (-53) * 2 ^ 53 == 1)%Q) by reflexivity. pose proof (p2_pos (-53)). nra. }
  assert (F1 : (fl (2 ^ (-53)) == 2 ^ (-53))%Q) by (rewrite (fl_eq _ (inject_Z 1 * 2 ^ (-53))) by reflexivity; rewrite fl_exact by lia; reflexivity).
  assert (S1 : (2 ^ (-53) <= float_scale m target)%Q) by (rewrite <- F1; apply fl_mono, Q1).
  assert (W : (2 ^ 54 == 2 * 2 ^ 53)%Q) by reflexivity.
  assert (D : (inject_Z target / inject_Z (all_scores m) <= inject_Z target)%Q) by (apply Qle_shift_div_r; [exact T0|]; nra).
  assert (I : forall kv, In kv (float_items m target) -> in_range (sc_scaled (snd kv)) /\ (0 <= sc_scaled (snd kv))%Q).
  { intros kv H. apply in_map_iff in H as (cv&<-&H). cbn [snd]. assert (Hc : In (fst cv) (cands m)) by (apply in_map, H). pose proof (score_small m Hnn Htot _ Hc) as (L1&_). pose proof (scale_pos m target Htot Htg) as Ps.
    assert (N : (0 <= sc_scaled (float_item m target cv))%Q). { unfold float_item. cbn [sc_scaled]. apply fl_nonneg. rewrite (score_exact m Hnn Htot _ Hc). apply inj_le in L1. change (inject_Z 0) with 0%Q in L1. nra. }
    split; [|exact N]. destruct (Z.eq_dec (total_score m (fst cv)) 0) as [Z0|NZ].
    - left. unfold float_item. cbn [sc_scaled]. rewrite fl_zero; [reflexivity|]. rewrite (score_exact m Hnn Htot _ Hc), Z0. change (inject_Z 0) with 0%Q. ring.
    - right. assert (L2 : (1 <= inject_Z (total_score m (fst cv)))%Q) by (apply (inj_le 1); lia). split.
      + unfold float_item. cbn [sc_scaled]. rewrite <- F1. apply fl_mono. rewrite (score_exact m Hnn Htot _ Hc). nra.
      + destruct (near_bounds 2 _ _ ltac:(lia) (item_near m target Hnn Htot Htg cv H)) as (_&U). assert (L3 : (inject_Z (total_score m (fst cv)) <= inject_Z (all_scores m))%Q) by (apply inj_le, zsum_ge; [intros y Hy; apply in_map_iff in Hy as (d&<-&Hd); apply Hnn, Hd|apply in_map, Hc]).
        assert (K : (inject_Z (total_score m (fst cv)) * (inject_Z target / inject_Z (all_scores m)) <= inject_Z target)%Q).
        { pose proof (exact_pos m target Htot Htg) as X. assert (Y : (inject_Z (all_scores m) * (inject_Z target / inject_Z (all_scores m)) == inject_Z target)%Q) by (field; lra). nra. }
        lra. }
  assert (U : forall k, (fold_left (fun acc (kv : str * scaledinfo) => fl (acc + sc_scaled (snd kv))) (firstn k (float_items m target)) 0 <= 2 ^ 54)%Q).
  { intro k. unfold float_items. rewrite firstn_map. unfold cands in Hn. rewrite map_length in Hn. pose proof (firstn_length k (j_candidates m)) as Lk.
    assert (J : incl (firstn k (j_candidates m)) (j_candidates m)) by (intros x Hx; rewrite <- (firstn_skipn k (j_candidates m)); apply in_or_app; left; exact Hx).
    pose proof (sum_near m target Hnn Htot Htg (firstn k (j_candidates m)) J ltac:(lia)) as Sn. apply near_bounds in Sn; [|lia]. destruct Sn as (_&B).
    assert (L3 : (inject_Z (zsum (map (total_score m) (map fst (firstn k (j_candidates m))))) <= inject_Z (all_scores m))%Q).
    { apply inj_le. unfold all_scores, cands. rewrite <- (firstn_skipn k (j_candidates m)) at 2. rewrite !map_app, zsum_app. assert (0 <= zsum (map (total_score m) (map fst (skipn k (j_candidates m))))); [|lia].
      assert (forall c, In c (map fst (skipn k (j_candidates m))) -> 0 <= total_score m c) as P. { intros c Hc. apply Hnn. unfold cands. rewrite <- (firstn_skipn k (j_candidates m)), map_app. apply in_or_app. right. exact Hc. }
      clear -P. induction (map fst (skipn k (j_candidates m))) as [|c l IH]; cbn [map zsum]; [lia|]. pose proof (P c (or_introl eq_refl)). assert (0 <= zsum (map (total_score m) l)) by (apply IH; intros; apply P; right; assumption). lia. }
    pose proof (exact_pos m target Htot Htg) as X. assert (Y : (inject_Z (all_scores m) * (inject_Z target / inject_Z (all_scores m)) == inject_Z target)%Q) by (field; lra). nra. }
  assert (L : forall l acc, (forall kv, In kv l -> in_range (sc_scaled (snd kv)) /\ (0 <= sc_scaled (snd kv))%Q) -> ((acc == 0)%Q \/ (2 ^ (-53) <= acc)%Q) ->
    let r := fold_left (fun acc (kv : str * scaledinfo) => fl (acc + sc_scaled (snd kv))) l acc in ((r == 0)%Q \/ (2 ^ (-53) <= r)%Q)).
  { cbv zeta. induction l as [|kv l IH]; intros acc H A; cbn [fold_left]; [exact A|]. apply IH; [intros; apply H; right; assumption|]. destruct (H kv (or_introl eq_refl)) as ([Z0|(R1&_)]&P).
    - destruct A as [A|A]; [left; rewrite fl_zero; [reflexivity|lra]|right; rewrite <- F1; apply fl_mono; lra].
    - right. rewrite <- F1. apply fl_mono. pose proof (p2_pos (-53)). destruct A; lra. }
  assert (K : forall k, in_range (fold_left (fun acc kv => fl (acc + sc_scaled (snd kv))) (firstn k (float_items m target)) 0%Q)).
  { intro k. destruct (L (firstn k (float_items m target)) 0%Q) as [A|A]; [intros kv H; apply I; rewrite <- (firstn_skipn k (float_items m target)); apply in_or_app; left; exact H|left; reflexivity|left; exact A|right; split; [exact A|apply U]]. }
  split; [|split; [|split; [|exact K]]].
  - right. split; [exact S1|]. destruct (near_bounds 1 _ _ ltac:(lia) (scale_near m target Htot Htg)) as (_&B). lra.
  - intros c si H. apply dget_In in H. exact (proj1 (I (c, si) H)).
  - specialize (K (length (float_items m target))). rewrite firstn_all in K. exact K.
Qed.
Print Assumptions C97_range.

(** The scaled scores need not add up to the target: nine points for one candidate and one for each of two others make 50 + 2^-47 of 50, as Python prints 50.00000000000001. *)
Theorem C97_total_refuted : exists m, convert_abif_to_jabmod (u "1:A/9>B/1=C/1") false true false = Ok m /\ scorable m /\ tallyable m /\ all_scores m = 11 /\
  exists exact rounded, scaled_scores m 50 = Ok exact /\ (sc_scaled_total exact == 50)%Q /\ scaled_floats m 50 = Ok rounded /\ (sc_scaled_total rounded == 50 + 2 ^ (-47))%Q.
Proof.
  eexists. split; [vm_compute; reflexivity|]. match goal with |- scorable ?m /\ _ => destruct (C36_parsed_is_tallyable (u "1:A/9>B/1=C/1") false true false m) as (H1&H2&_); [vm_compute; reflexivity|vm_compute; discriminate|] end.
  split; [exact H2|]. split; [exact H1|]. split; [vm_compute; reflexivity|]. eexists. eexists. split; [vm_compute; reflexivity|]. split; [vm_compute; reflexivity|]. split; [vm_compute; reflexivity|]. vm_compute. reflexivity.
Qed.
Print Assumptions C97_total_refuted.
(** The hypotheses of C97_scaled and C97_range hold for a file with ratings, and the scaled scores are the floats that Python prints as 41.666666666666664, 52.77777777777778 and 5.555555555555555. *)
Theorem C97_nonvacuous : exists m res, convert_abif_to_jabmod (u "3:A/5>B/3>C/0" ++ [10%N] ++ u "2:B/5>C/1") false true false = Ok m /\ scorable m /\ tallyable m /\ dget k_ballotcount (j_metadata m) = Some (JInt 5) /\
  length (cands m) = 3%nat /\ map (total_score m) (cands m) = [15; 19; 2] /\ scaled_floats m 100 = Ok res /\ map (fun kv => Qred (sc_scaled (snd kv))) (sc_canddict res) = [5864062014805333 # 140737488355328; 7427811885420089 # 140737488355328; 3127499741229511 # 562949953421312]%Q /\ (sc_scaled_total res == 100)%Q.
Proof.
  eexists. eexists. split; [vm_compute; reflexivity|]. match goal with |- scorable ?m /\ _ => destruct (C36_parsed_is_tallyable (u "3:A/5>B/3>C/0" ++ [10%N] ++ u "2:B/5>C/1") false true false m) as (H1&H2&_); [vm_compute; reflexivity|vm_compute; discriminate|] end.
  split; [exact H2|]. split; [exact H1|]. split; [vm_compute; reflexivity|]. split; [vm_compute; reflexivity|]. split; [vm_compute; reflexivity|]. split; [vm_compute; reflexivity|]. split; vm_compute; reflexivity.
Qed.
Print Assumptions C97_nonvacuous.
