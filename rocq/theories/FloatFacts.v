(** * FloatFacts: what rounding to 53 bits does *)
From Coq Require Import Lia QArith Qround Qpower Qabs Lqa.
From Verif Require Import PyBase PyFacts FloatModel.
Local Open Scope Q_scope.

Lemma two_nz : ~ 2 == 0. Proof. discriminate. Qed.
Lemma p2_pos e : 0 < 2 ^ e. Proof. apply Qpower_0_lt. reflexivity. Qed.
Lemma p2_nz e : ~ 2 ^ e == 0. Proof. apply Qpower_not_0, two_nz. Qed.
Lemma p2_plus a b : 2 ^ (a + b) == 2 ^ a * 2 ^ b. Proof. apply Qpower_plus, two_nz. Qed.
Lemma p2_succ e : 2 ^ (e + 1) == 2 * 2 ^ e. Proof. rewrite p2_plus. rewrite Qpower_1_r. ring. Qed.
Lemma p2_minus a b : 2 ^ (a - b) == 2 ^ a / 2 ^ b. Proof. apply Qpower_minus, two_nz. Qed.
Lemma p2_le a b : (a <= b)%Z -> 2 ^ a <= 2 ^ b. Proof. intro H. apply Qpower_le_compat_l; [exact H|discriminate]. Qed.
Lemma p2_lt a b : (a < b)%Z -> 2 ^ a < 2 ^ b. Proof. intro H. apply Qpower_lt_compat_l; [exact H|reflexivity]. Qed.
Lemma p2_lt_inv a b : 2 ^ a < 2 ^ b -> (a < b)%Z. Proof. intro H. destruct (Z_lt_le_dec a b); [assumption|]. apply p2_le in l. lra. Qed.
Lemma p2_Z n : (0 <= n)%Z -> inject_Z (2 ^ n) == 2 ^ n. Proof. intro H. rewrite Zpower_Qpower by exact H. reflexivity. Qed.
Lemma inj_le a b : (a <= b)%Z -> inject_Z a <= inject_Z b. Proof. intro H. rewrite <- Zle_Qle. exact H. Qed.
Lemma inj_lt a b : (a < b)%Z -> inject_Z a < inject_Z b. Proof. intro H. rewrite <- Zlt_Qlt. exact H. Qed.
Lemma inj_S a : inject_Z (a + 1) == inject_Z a + 1. Proof. rewrite inject_Z_plus. reflexivity. Qed.
Lemma frac x : x == inject_Z (Qnum x) / inject_Z (QDen x).
Proof. destruct x as [n d]. cbn [Qnum Qden]. rewrite <- Qmake_Qdiv. reflexivity. Qed.

Lemma div_le a b c : 0 < c -> a * c <= b -> a <= b / c.
Proof. intros H G. apply Qle_shift_div_l; [exact H|exact G]. Qed.
Lemma div_lt a b c : 0 < c -> b < a * c -> b / c < a.
Proof. intros H G. apply Qlt_shift_div_r; [exact H|exact G]. Qed.

Lemma exponent_spec x : 0 < x -> 2 ^ exponent x <= x /\ x < 2 ^ (exponent x + 1).
Proof.
  intro H. assert (Hn : (0 < Qnum x)%Z) by (destruct x as [n d]; unfold Qlt in H; cbn in *; lia). assert (Hd : (0 < QDen x)%Z) by lia.
  destruct (Z.log2_spec _ Hn) as (N1&N2). destruct (Z.log2_spec _ Hd) as (D1&D2). pose proof (Z.log2_nonneg (Qnum x)) as P1. pose proof (Z.log2_nonneg (QDen x)) as P2.
  apply inj_le in N1, D1. apply inj_lt in N2, D2. rewrite !p2_Z in N1, N2, D1, D2 by lia. unfold Z.succ in *. set (a := Z.log2 (Qnum x)) in *. set (b := Z.log2 (QDen x)) in *. 
  pose proof (frac x) as F. revert F N1 N2 D1 D2. generalize (inject_Z (Qnum x)) (inject_Z (QDen x)). intros n d F N1 N2 D1 D2. assert (Pd : 0 < d) by (pose proof (p2_pos b); lra).
  rewrite p2_succ in N2, D2. pose proof (p2_pos a) as Pa. pose proof (p2_pos b) as Pb. pose proof (p2_minus a b) as E. set (e := (a - b)%Z) in *.
  assert (E' : 2 ^ a == 2 ^ e * 2 ^ b) by (rewrite E; field; apply p2_nz). pose proof (p2_pos e) as Pe.
  assert (U : x < 2 ^ (e + 1)) by (rewrite F, p2_succ; apply (div_lt (2 * 2 ^ e) n d Pd); nra).
  assert (L : 2 ^ (e - 1) <= x).
  { rewrite F. apply (div_le (2 ^ (e - 1)) n d Pd). assert (G : 2 ^ e == 2 * 2 ^ (e - 1)) by (rewrite <- p2_succ; replace (e - 1 + 1)%Z with e by lia; reflexivity). pose proof (p2_pos (e - 1)). nra. }
  unfold exponent. fold a b. fold e. destruct (Qle_bool (2 ^ e) x) eqn:G; [apply Qle_bool_iff in G; split; assumption|].
  split; [exact L|]. replace (e - 1 + 1)%Z with e by lia. apply Qnot_le_lt. intro K. apply Qle_bool_iff in K. congruence.
Qed.
Lemma exponent_unique x e : 2 ^ e <= x -> x < 2 ^ (e + 1) -> exponent x = e.
Proof.
  intros H1 H2. assert (P : 0 < x) by (pose proof (p2_pos e); lra). destruct (exponent_spec x P) as (E1&E2).
  assert (A : (exponent x < e + 1)%Z) by (apply p2_lt_inv; lra). assert (B : (e < exponent x + 1)%Z) by (apply p2_lt_inv; lra). lia.
Qed.
Lemma exponent_mono x y : 0 < x -> x <= y -> (exponent x <= exponent y)%Z.
Proof. intros H1 H2. destruct (exponent_spec x H1) as (E1&_). destruct (exponent_spec y ltac:(lra)) as (_&E2). assert ((exponent x < exponent y + 1)%Z) by (apply p2_lt_inv; lra). lia. Qed.
Lemma exponent_eq x y : 0 < x -> x == y -> exponent x = exponent y.
Proof. intros H1 H2. pose proof (exponent_mono x y H1 ltac:(lra)). pose proof (exponent_mono y x ltac:(lra) ltac:(lra)). lia. Qed.

Lemma floor_spec y : inject_Z (Qfloor y) <= y /\ y < inject_Z (Qfloor y) + 1.
Proof. split; [apply Qfloor_le|]. rewrite <- inj_S. apply Qlt_floor. Qed.
Lemma half_even_cases y : (half_even y = Qfloor y /\ y - inject_Z (Qfloor y) <= 1 # 2) \/ (half_even y = (Qfloor y + 1)%Z /\ 1 # 2 <= y - inject_Z (Qfloor y)).
Proof.
  unfold half_even. destruct (Qcompare_spec (y - inject_Z (Qfloor y)) (1 # 2)) as [E|E|E]; [destruct (Z.even (Qfloor y)); [left|right]|left|right]; split; try reflexivity; lra.
Qed.
Lemma half_even_close y : - (1 # 2) <= inject_Z (half_even y) - y /\ inject_Z (half_even y) - y <= 1 # 2.
Proof. destruct (floor_spec y) as (F1&F2). destruct (half_even_cases y) as [(E&H)|(E&H)]; rewrite E; [|rewrite inj_S]; split; lra. Qed.
Lemma half_even_eq y z : y == z -> half_even y = half_even z.
Proof. intro H. unfold half_even. rewrite (Qfloor_comp y z H). rewrite (Qcompare_comp (y - inject_Z (Qfloor z)) (z - inject_Z (Qfloor z)) ltac:(rewrite H; reflexivity) (1#2) (1#2) ltac:(reflexivity)). reflexivity. Qed.
Lemma half_even_mono y z : y <= z -> (half_even y <= half_even z)%Z.
Proof.
  intro H. destruct (Qeq_dec y z) as [E|N]; [rewrite (half_even_eq y z E); lia|]. pose proof (half_even_close y) as (_&Y). pose proof (half_even_close z) as (Z1&_).
  assert (S : inject_Z (half_even y) < inject_Z (half_even z) + 1) by (assert (y < z) by (apply Qle_lteq in H as [H|H]; [exact H|contradiction]); lra). rewrite <- inj_S in S. rewrite <- Zlt_Qlt in S. lia.
Qed.
Lemma half_even_Z n : half_even (inject_Z n) = n.
Proof. pose proof (half_even_close (inject_Z n)) as (H1&H2). assert (A : inject_Z (half_even (inject_Z n)) < inject_Z n + 1) by lra. assert (B : inject_Z n < inject_Z (half_even (inject_Z n)) + 1) by lra. rewrite <- inj_S in A, B. rewrite <- Zlt_Qlt in A, B. lia. Qed.

(** ** Rounding a number > 0 *)
Section Pos.
  Variable x : Q.
  Hypothesis Hx : 0 < x.
  Let k := (exponent x - 52)%Z.
  Lemma pos_scaled : inject_Z (2 ^ 52) <= x / 2 ^ k /\ x / 2 ^ k < inject_Z (2 ^ 53).
  Proof.
    destruct (exponent_spec x Hx) as (E1&E2). rewrite !p2_Z by lia. split.
    - apply div_le; [apply p2_pos|]. rewrite <- p2_plus. unfold k. replace (52 + (exponent x - 52))%Z with (exponent x) by lia. exact E1.
    - apply div_lt; [apply p2_pos|]. rewrite <- p2_plus. unfold k. replace (53 + (exponent x - 52))%Z with (exponent x + 1)%Z by lia. exact E2.
  Qed.
  Lemma pos_bounds : 2 ^ exponent x <= fl_pos x /\ fl_pos x <= 2 ^ (exponent x + 1).
  Proof.
    destruct pos_scaled as (H1&H2). apply Qlt_le_weak in H2. apply half_even_mono in H1, H2. rewrite !half_even_Z in H1, H2. apply inj_le in H1, H2. rewrite !p2_Z in H1, H2 by lia. unfold fl_pos. fold k. split.
    - replace (exponent x) with (52 + k)%Z at 1 by (unfold k; lia). rewrite p2_plus. apply Qmult_le_r; [apply p2_pos|exact H1].
    - replace (exponent x + 1)%Z with (53 + k)%Z by (unfold k; lia). rewrite p2_plus. apply Qmult_le_r; [apply p2_pos|exact H2].
  Qed.
  (** At most half a unit in the last place *)
  Lemma pos_close : - (2 ^ (exponent x - 53)) <= fl_pos x - x /\ fl_pos x - x <= 2 ^ (exponent x - 53).
  Proof.
    destruct (half_even_close (x / 2 ^ k)) as (H1&H2). unfold fl_pos. fold k. assert (E : x == x / 2 ^ k * 2 ^ k) by (field; apply p2_nz). assert (G : 2 ^ (exponent x - 53) == (1 # 2) * 2 ^ k) by (replace k with (exponent x - 53 + 1)%Z by (unfold k; lia); rewrite p2_succ; ring).
    pose proof (p2_pos k) as P. rewrite G. set (y := x / 2 ^ k) in *. set (h := inject_Z (half_even y)) in *. setoid_replace (h * 2 ^ k - x) with ((h - y) * 2 ^ k) by (rewrite E; ring). split; nra.
  Qed.
  Lemma pos_relative : - (x * 2 ^ (-53)) <= fl_pos x - x /\ fl_pos x - x <= x * 2 ^ (-53).
  Proof.
    destruct pos_close as (H1&H2). destruct (exponent_spec x Hx) as (E1&_). assert (G : 2 ^ (exponent x - 53) <= x * 2 ^ (-53)) by (change (exponent x - 53)%Z with (exponent x + -53)%Z; rewrite p2_plus; apply Qmult_le_r; [apply p2_pos|exact E1]). split; lra.
  Qed.
End Pos.
Lemma fl_pos_eq x y : 0 < x -> x == y -> fl_pos x == fl_pos y.
Proof. intros H E. unfold fl_pos. rewrite (exponent_eq x y H E). rewrite (half_even_eq (x / 2 ^ (exponent y - 52)) (y / 2 ^ (exponent y - 52))); [reflexivity|]. rewrite E. reflexivity. Qed.
Lemma fl_pos_mono x y : 0 < x -> x <= y -> fl_pos x <= fl_pos y.
Proof.
  intros Hx H. pose proof (exponent_mono x y Hx H) as M. destruct (Z.eq_dec (exponent x) (exponent y)) as [E|N].
  - unfold fl_pos. rewrite E. apply Qmult_le_r; [apply p2_pos|]. apply inj_le, half_even_mono. apply div_le; [apply p2_pos|]. setoid_replace (x / 2 ^ (exponent y - 52) * 2 ^ (exponent y - 52)) with x by (field; apply p2_nz). exact H.
  - destruct (pos_bounds x Hx) as (_&B1). destruct (pos_bounds y ltac:(lra)) as (B2&_). pose proof (p2_le (exponent x + 1) (exponent y) ltac:(lia)). lra.
Qed.
(** A number that has a float is its own float. *)
Lemma fl_pos_exact n e : (0 < n <= 2 ^ 53)%Z -> fl_pos (inject_Z n * 2 ^ e) == inject_Z n * 2 ^ e.
Proof.
  intros (H1&H2). set (x := inject_Z n * 2 ^ e). assert (P : 0 < x) by (apply Qmult_lt_0_compat; [apply (inj_lt 0 n H1)|apply p2_pos]).
  destruct (Z.eq_dec n (2 ^ 53)) as [En|Nn].
  - assert (Ex : exponent x = (e + 53)%Z).
    { assert (G : x == 2 ^ (e + 53)) by (unfold x; rewrite En, p2_Z, p2_plus by lia; ring). apply exponent_unique; [rewrite G; lra|]. rewrite G. apply p2_lt. lia. }
    unfold fl_pos. rewrite Ex. replace (e + 53 - 52)%Z with (e + 1)%Z by lia. assert (G : x / 2 ^ (e + 1) == inject_Z (2 ^ 52)) by (unfold x; rewrite En, p2_succ; change (2 ^ 53)%Z with (2 * 2 ^ 52)%Z; rewrite inject_Z_mult; change (inject_Z 2) with 2; field; apply p2_nz).
    rewrite (half_even_eq _ _ G), half_even_Z. unfold x. rewrite En, p2_succ. change (2 ^ 53)%Z with (2 * 2 ^ 52)%Z. rewrite inject_Z_mult. change (inject_Z 2) with 2. ring.
  - destruct (exponent_spec x P) as (E1&E2). set (k := (exponent x - 52)%Z). assert (Hk : (k <= e)%Z).
    { assert (G : x < 2 ^ (e + 53)) by (unfold x; rewrite p2_plus, (Qmult_comm (2 ^ e)); apply Qmult_lt_r; [apply p2_pos|]; rewrite <- p2_Z by lia; apply inj_lt; lia). assert ((exponent x < e + 53)%Z) by (apply p2_lt_inv; lra). unfold k. lia. }
    assert (G : x / 2 ^ k == inject_Z (n * 2 ^ (e - k))). { unfold x. rewrite inject_Z_mult, p2_Z, p2_minus by lia. field. apply p2_nz. }
    unfold fl_pos. fold k. rewrite (half_even_eq _ _ G), half_even_Z. rewrite <- G. field. apply p2_nz.
Qed.

(** ** Rounding any number *)
Lemma num_sign x : match Qnum x with Z0 => x == 0 | Zpos _ => 0 < x | Zneg _ => x < 0 end.
Proof. destruct x as [[|p|p] d]; cbn [Qnum]; unfold Qeq, Qlt; cbn; lia. Qed.
Lemma fl_zero x : x == 0 -> fl x = 0.
Proof. intro H. pose proof (num_sign x) as S. unfold fl. destruct (Qnum x); [reflexivity|lra|lra]. Qed.
Lemma fl_of_pos x : 0 < x -> fl x = fl_pos x.
Proof. intro H. pose proof (num_sign x) as S. unfold fl. destruct (Qnum x); [lra|reflexivity|lra]. Qed.
Lemma fl_of_neg x : x < 0 -> fl x = - fl_pos (- x).
Proof. intro H. pose proof (num_sign x) as S. unfold fl. destruct (Qnum x); [lra|lra|reflexivity]. Qed.
Lemma fl_pos_pos x : 0 < x -> 0 < fl_pos x.
Proof. intro H. destruct (pos_bounds x H) as (B&_). pose proof (p2_pos (exponent x)). lra. Qed.
Lemma sign3 x : x == 0 \/ 0 < x \/ x < 0.
Proof. destruct (Q_dec x 0) as [[H|H]|H]; auto. Qed.
Lemma fl_nonneg x : 0 <= x -> 0 <= fl x.
Proof. intro H. destruct (sign3 x) as [E|[P|N]]; [rewrite (fl_zero x E); lra|rewrite (fl_of_pos x P); pose proof (fl_pos_pos x P); lra|lra]. Qed.
Lemma fl_mono x y : x <= y -> fl x <= fl y.
Proof.
  intro H. destruct (sign3 x) as [E|[P|N]]; [rewrite (fl_zero x E); apply fl_nonneg; lra|rewrite (fl_of_pos x P), (fl_of_pos y) by lra; apply fl_pos_mono; assumption|].
  rewrite (fl_of_neg x N). pose proof (fl_pos_pos (- x) ltac:(lra)) as P1. destruct (sign3 y) as [E|[P|N']]; [rewrite (fl_zero y E); lra|rewrite (fl_of_pos y P); pose proof (fl_pos_pos y P); lra|].
  rewrite (fl_of_neg y N'). pose proof (fl_pos_mono (- y) (- x) ltac:(lra) ltac:(lra)). lra.
Qed.
Lemma fl_eq x y : x == y -> fl x == fl y.
Proof. intro H. apply Qle_antisym; apply fl_mono; lra. Qed.
Lemma fl_relative x : Qabs (fl x - x) <= Qabs x * 2 ^ (-53).
Proof.
  destruct (sign3 x) as [E|[P|N]].
  - rewrite (fl_zero x E). setoid_replace (0 - x) with 0 by lra. change (Qabs 0) with 0. pose proof (Qabs_nonneg x). pose proof (p2_pos (-53)). nra.
  - rewrite (fl_of_pos x P), (Qabs_pos x) by lra. destruct (pos_relative x P). apply Qabs_Qle_condition. split; assumption.
  - rewrite (fl_of_neg x N), (Qabs_neg x) by lra. destruct (pos_relative (- x) ltac:(lra)). apply Qabs_Qle_condition. split; lra.
Qed.
Lemma fl_exact n e : (- 2 ^ 53 <= n <= 2 ^ 53)%Z -> fl (inject_Z n * 2 ^ e) == inject_Z n * 2 ^ e.
Proof.
  intros H. pose proof (p2_pos e) as P. destruct (Z.lt_trichotomy n 0) as [L|[->|G]].
  - assert (Hn : inject_Z n < 0) by (apply (inj_lt n 0 L)). rewrite fl_of_neg by nra. rewrite (fl_pos_eq _ (inject_Z (- n) * 2 ^ e)); [rewrite fl_pos_exact by lia| |]; rewrite ?inject_Z_opp; nra.
  - rewrite fl_zero; change (inject_Z 0) with 0; ring.
  - assert (Hn : 0 < inject_Z n) by (apply (inj_lt 0 n G)). rewrite fl_of_pos by nra. apply fl_pos_exact. lia.
Qed.
Lemma fl_int n : (- 2 ^ 53 <= n <= 2 ^ 53)%Z -> fl (inject_Z n) == inject_Z n.
Proof. intro H. rewrite (fl_eq (inject_Z n) (inject_Z n * 2 ^ 0)) by (change (2 ^ 0) with 1; ring). rewrite fl_exact by exact H. change (2 ^ 0) with 1. ring. Qed.

(** ** The nearest number with 53 bits *)
Lemma half_even_nearest y j : Qabs (inject_Z (half_even y) - y) <= Qabs (inject_Z j - y).
Proof.
  destruct (floor_spec y) as (F1&F2). assert (J : inject_Z j <= inject_Z (Qfloor y) \/ inject_Z (Qfloor y) + 1 <= inject_Z j).
  { destruct (Z_le_gt_dec j (Qfloor y)) as [H|H]; [left; apply inj_le, H|right; rewrite <- inj_S; apply inj_le; lia]. }
  destruct (half_even_cases y) as [(E&H)|(E&H)]; rewrite E; [|rewrite inj_S].
  - rewrite (Qabs_neg (inject_Z (Qfloor y) - y)) by lra. destruct J as [J|J]; [rewrite Qabs_neg|rewrite Qabs_pos]; lra.
  - rewrite (Qabs_pos (inject_Z (Qfloor y) + 1 - y)) by lra. destruct J as [J|J]; [rewrite Qabs_neg|rewrite Qabs_pos]; lra.
Qed.
Lemma fl_pos_nearest x n e : 0 < x -> (- 2 ^ 53 <= n <= 2 ^ 53)%Z -> Qabs (fl_pos x - x) <= Qabs (inject_Z n * 2 ^ e - x).
Proof.
  intros Hx Hn. destruct (exponent_spec x Hx) as (E1&E2). set (k := (exponent x - 52)%Z). pose proof (p2_pos k) as Pk.
  assert (G : forall j, Qabs (fl_pos x - x) <= Qabs (inject_Z j * 2 ^ k - x)).
  { intro j. assert (Ex : x == x / 2 ^ k * 2 ^ k) by (field; apply p2_nz). unfold fl_pos. fold k. set (y := x / 2 ^ k) in *. pose proof (half_even_nearest y j) as H.
    setoid_replace (inject_Z (half_even y) * 2 ^ k - x) with ((inject_Z (half_even y) - y) * 2 ^ k) by (rewrite Ex; ring). setoid_replace (inject_Z j * 2 ^ k - x) with ((inject_Z j - y) * 2 ^ k) by (rewrite Ex; ring).
    rewrite !Qabs_Qmult, (Qabs_pos (2 ^ k)) by lra. nra. }
  destruct (Qlt_le_dec (inject_Z n * 2 ^ e) (2 ^ exponent x)) as [L|L].
  - specialize (G (2 ^ 52)%Z). assert (B : inject_Z (2 ^ 52) * 2 ^ k == 2 ^ exponent x) by (rewrite p2_Z, <- p2_plus by lia; unfold k; replace (52 + (exponent x - 52))%Z with (exponent x) by lia; reflexivity).
    rewrite B in G. rewrite (Qabs_neg (2 ^ exponent x - x)) in G by lra. rewrite (Qabs_neg (inject_Z n * 2 ^ e - x)) by lra. lra.
  - destruct (Z_le_gt_dec k e) as [Hk|Hk].
    + specialize (G (n * 2 ^ (e - k))%Z). setoid_replace (inject_Z n * 2 ^ e) with (inject_Z (n * 2 ^ (e - k)) * 2 ^ k); [exact G|]. rewrite inject_Z_mult, p2_Z, p2_minus by lia. field. apply p2_nz.
    + specialize (G (2 ^ 52)%Z). assert (U : inject_Z n * 2 ^ e <= 2 ^ exponent x).
      { apply Qle_trans with (2 ^ 53 * 2 ^ e); [apply Qmult_le_r; [apply p2_pos|]; rewrite <- p2_Z by lia; apply inj_le; lia|]. rewrite <- p2_plus. apply p2_le. unfold k in Hk. lia. }
      setoid_replace (inject_Z n * 2 ^ e) with (inject_Z (2 ^ 52) * 2 ^ k); [exact G|]. rewrite p2_Z, <- p2_plus by lia. unfold k. replace (52 + (exponent x - 52))%Z with (exponent x) by lia. lra.
Qed.
Lemma fl_nearest x n e : (- 2 ^ 53 <= n <= 2 ^ 53)%Z -> Qabs (fl x - x) <= Qabs (inject_Z n * 2 ^ e - x).
Proof.
  intros Hn. destruct (sign3 x) as [E|[P|N]].
  - rewrite (fl_zero x E). rewrite (Qabs_wd (0 - x) 0) by lra. apply Qabs_nonneg.
  - rewrite (fl_of_pos x P). apply fl_pos_nearest; assumption.
  - rewrite (fl_of_neg x N). pose proof (fl_pos_nearest (- x) (- n) e ltac:(lra) ltac:(lia)) as H. rewrite <- Qabs_opp. rewrite <- (Qabs_opp (inject_Z n * 2 ^ e - x)).
    rewrite (Qabs_wd (- (- fl_pos (- x) - x)) (fl_pos (- x) - - x)) by ring. rewrite (Qabs_wd (- (inject_Z n * 2 ^ e - x)) (inject_Z (- n) * 2 ^ e - - x)) by (rewrite inject_Z_opp; ring). exact H.
Qed.
Lemma half_even_tie y : Qabs (inject_Z (half_even y) - y) == 1 # 2 -> Z.even (half_even y) = true.
Proof.
  destruct (floor_spec y) as (F1&F2). unfold half_even. destruct (Qcompare_spec (y - inject_Z (Qfloor y)) (1 # 2)) as [E|E|E].
  - destruct (Z.even (Qfloor y)) eqn:V; intros _; [exact V|]. rewrite Z.add_1_r, Z.even_succ, <- Z.negb_even, V. reflexivity.
  - intro H. rewrite Qabs_neg in H by lra. lra.
  - intro H. rewrite inj_S in H. rewrite Qabs_pos in H by lra. lra.
Qed.
(** The result has 53 bits; of two numbers equally near it is the one whose last bit is 0. *)
Lemma fl_bits x : exists n e, fl x == inject_Z n * 2 ^ e /\ (- 2 ^ 53 <= n <= 2 ^ 53)%Z /\ (~ x == 0 -> 2 ^ (e + 52) <= Qabs x) /\ (~ x == 0 -> Qabs (fl x - x) == (1 # 2) * 2 ^ e -> Z.even n = true).
Proof.
  assert (G : forall x, 0 < x -> exists n e, fl_pos x == inject_Z n * 2 ^ e /\ (0 <= n <= 2 ^ 53)%Z /\ 2 ^ (e + 52) <= x /\ (Qabs (fl_pos x - x) == (1 # 2) * 2 ^ e -> Z.even n = true)).
  { intros y Hy. set (k := (exponent y - 52)%Z). exists (half_even (y / 2 ^ k)), k. split; [reflexivity|]. destruct (pos_scaled y Hy) as (H1&H2). fold k in H1, H2. apply Qlt_le_weak in H2. apply half_even_mono in H1, H2. rewrite !half_even_Z in H1, H2. split; [lia|]. split.
    - unfold k. replace (exponent y - 52 + 52)%Z with (exponent y) by lia. apply (exponent_spec y Hy).
    - intro H. apply half_even_tie. pose proof (p2_pos k) as Pk. revert H. unfold fl_pos. fold k. assert (Ey : y == y / 2 ^ k * 2 ^ k) by (field; apply p2_nz). set (z := y / 2 ^ k) in *. 
      rewrite (Qabs_wd (inject_Z (half_even z) * 2 ^ k - y) ((inject_Z (half_even z) - z) * 2 ^ k)) by (rewrite Ey; ring). rewrite Qabs_Qmult, (Qabs_pos (2 ^ k)) by lra. intro H. apply Qmult_inj_r in H; [exact H|apply p2_nz]. }
  destruct (sign3 x) as [E|[P|N]].
  - exists 0%Z, 0%Z. rewrite (fl_zero x E). split; [reflexivity|]. split; [lia|]. split; intros; contradiction.
  - destruct (G x P) as (n&e&H1&H2&H3&H4). exists n, e. rewrite (fl_of_pos x P). split; [exact H1|]. split; [lia|]. split; intros _; [rewrite Qabs_pos by lra; exact H3|exact H4].
  - destruct (G (- x) ltac:(lra)) as (n&e&H1&H2&H3&H4). exists (- n)%Z, e. rewrite (fl_of_neg x N). split; [rewrite H1, inject_Z_opp; ring|]. split; [lia|]. split; intros _; [rewrite Qabs_neg by lra; exact H3|]. rewrite Z.even_opp. intro H. apply H4. rewrite <- H, <- Qabs_opp. apply Qabs_wd. ring.
Qed.

(** ** How errors add up *)
(** x is the float for y after j roundings. *)
Definition near (j : Z) (x y : Q) : Prop := 0 <= y /\ Qabs (x - y) <= y * (inject_Z j * 2 ^ (-52)).
Lemma near_refl y : 0 <= y -> near 0 y y.
Proof. intro H. split; [exact H|]. rewrite (Qabs_wd (y - y) 0) by ring. change (Qabs 0) with 0. change (inject_Z 0) with 0. lra. Qed.
Lemma near_weaken j j' x y : near j x y -> (j <= j')%Z -> near j' x y.
Proof. intros (H1&H2) L. split; [exact H1|]. apply inj_le in L. pose proof (p2_pos (-52)). assert (inject_Z j * 2 ^ (-52) <= inject_Z j' * 2 ^ (-52)) by nra. nra. Qed.
Lemma near_add j x y x' y' : near j x y -> near j x' y' -> near j (x + x') (y + y').
Proof.
  intros (H1&H2) (H3&H4). split; [lra|]. rewrite (Qabs_wd (x + x' - (y + y')) ((x - y) + (x' - y'))) by ring. eapply Qle_trans; [apply Qabs_triangle|]. lra.
Qed.
Lemma near_mul j c x y : 0 <= c -> near j x y -> near j (c * x) (c * y).
Proof.
  intros Hc (H1&H2). split; [nra|]. rewrite (Qabs_wd (c * x - c * y) (c * (x - y))) by ring. rewrite Qabs_Qmult, (Qabs_pos c Hc). nra.
Qed.
Lemma near_eq j x x' y y' : near j x y -> x == x' -> y == y' -> near j x' y'.
Proof. intros (H1&H2) E1 E2. split; [lra|]. rewrite (Qabs_wd (x' - y') (x - y)) by lra. rewrite <- E2. exact H2. Qed.
Lemma near_fl j x y : (0 <= j <= 2 ^ 51)%Z -> near j x y -> near (j + 1) (fl x) y.
Proof.
  intros (J1&J2) (H1&H2). split; [exact H1|]. pose proof (fl_relative x) as R. apply inj_le in J1, J2. rewrite inj_S. set (i := inject_Z j) in *. change (inject_Z 0) with 0 in J1. assert (P : 2 ^ (-52) == 2 * 2 ^ (-53)) by reflexivity. pose proof (p2_pos (-53)) as U.
  assert (V : inject_Z (2 ^ 51) * 2 ^ (-53) == 1 # 4) by reflexivity. rewrite P in *. set (w := 2 ^ (-53)) in *.
  assert (A : Qabs x <= y + y * (i * (2 * w))). { setoid_replace x with (y + (x - y)) at 1 by ring. eapply Qle_trans; [apply Qabs_triangle|]. rewrite (Qabs_pos y H1). lra. }
  setoid_replace (fl x - y) with ((fl x - x) + (x - y)) by ring. eapply Qle_trans; [apply Qabs_triangle|]. 
  assert (B : i * w <= 1 # 4) by nra. assert (C : Qabs x * w <= (y + y * (i * (2 * w))) * w) by nra. assert (D : y * (i * w) <= y * (1 # 4)) by nra. assert (E : y * (i * w) * w <= y * (1 # 4) * w) by nra. nra.
Qed.
Lemma near_bounds j x y : (j <= 2 ^ 51)%Z -> near j x y -> (1 # 2) * y <= x /\ x <= 2 * y.
Proof.
  intros J (H1&H2). apply inj_le in J. assert (V : inject_Z (2 ^ 51) * 2 ^ (-52) == 1 # 2) by reflexivity. pose proof (p2_pos (-52)) as U. assert (B : inject_Z j * 2 ^ (-52) <= 1 # 2) by nra. apply Qabs_Qle_condition in H2 as (A1&A2).
  assert (C : y * (inject_Z j * 2 ^ (-52)) <= y * (1 # 2)) by nra. split; lra.
Qed.
(** Different integers stay different when they are multiplied with the same number. *)
Lemma fl_strict (a b : Z) s : 0 < s -> (0 <= a < b)%Z -> (b < 2 ^ 52)%Z -> fl (inject_Z a * s) < fl (inject_Z b * s).
Proof.
  intros Hs (Ha&Hab) Hb. pose proof (fl_relative (inject_Z a * s)) as R1. pose proof (fl_relative (inject_Z b * s)) as R2. apply inj_le in Ha. change (inject_Z 0) with 0 in Ha. assert (Hab' : inject_Z a + 1 <= inject_Z b) by (rewrite <- inj_S; apply inj_le; lia). apply inj_lt in Hb.
  assert (V : inject_Z (2 ^ 52) * 2 ^ (-53) == 1 # 2) by reflexivity. pose proof (p2_pos (-53)) as U. set (w := 2 ^ (-53)) in *. set (p := inject_Z a) in *. set (q := inject_Z b) in *.
  rewrite (Qabs_pos (p * s)) in R1 by nra. rewrite (Qabs_pos (q * s)) in R2 by nra. apply Qabs_Qle_condition in R1 as (_&R1). apply Qabs_Qle_condition in R2 as (R2&_).
  assert (B : q * w < 1 # 2) by nra. assert (C : (p + q) * w < 1) by nra. assert (D : (p + q) * w * s < s) by nra. assert (E : (p + 1) * s <= q * s) by nra. nra.
Qed.
