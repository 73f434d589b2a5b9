(** * TextFacts: facts about str(int), join, split. *)

From Coq Require Import Lia.
From Verif Require Import PyBase PyFacts ParserSpec ParserFacts.

Local Ltac Zify.zify_post_hook ::= Z.div_mod_to_equations.

(** ** str(n) *)
Definition ascii_digit (c : N) : bool := ((48 <=? c) && (c <=? 57))%N.
Lemma ascii_digit_val c : ascii_digit c = true -> digit_val c = Some (c - 48)%N.
Proof.
  unfold ascii_digit. intro H. apply andb_prop in H as [H1 H2]. apply N.leb_le in H1, H2. unfold digit_val, nd_zeros, digit_in.
  destruct (N.leb_spec 48 c); [|lia]. destruct (N.ltb_spec c (48 + 10)); [reflexivity|lia].
Qed.
Definition dec (a : N) (ds : str) : N := fold_left (fun a c => 10 * a + (c - 48))%N ds a.

Lemma n2s_aux_spec f : forall n acc, (n < 2 ^ N.of_nat f)%N -> (0 < f)%nat ->
  exists ds, n2s_aux f n acc = ds ++ acc /\ ds <> [] /\ forallb ascii_digit ds = true /\ dec 0 ds = n.
Proof.
  induction f as [|f IH]; intros n acc Hn Hf; [lia|]. cbn [n2s_aux].
  assert (Hd : ascii_digit (48 + n mod 10) = true).
  { unfold ascii_digit. apply andb_true_intro. split; apply N.leb_le; lia. }
  destruct (N.eqb_spec (n / 10) 0) as [E|E].
  - exists [(48 + n mod 10)%N]. split; [reflexivity|]. split; [discriminate|]. split; [cbn [forallb]; rewrite Hd; reflexivity|]. cbn [dec fold_left]. lia.
  - rewrite Nat2N.inj_succ, N.pow_succ_r' in Hn.
    assert (Hn' : (n / 10 < 2 ^ N.of_nat f)%N) by lia.
    assert (Hf' : (0 < f)%nat). { destruct f; [|lia]. cbn in Hn'. lia. }
    destruct (IH (n / 10)%N ((48 + n mod 10)%N :: acc) Hn' Hf') as (ds&->&H1&H2&H3).
    exists (ds ++ [(48 + n mod 10)%N]). split; [rewrite <- app_assoc; reflexivity|]. split; [destruct ds; discriminate|].
    split; [rewrite forallb_app, H2; cbn [forallb]; rewrite Hd; reflexivity|].
    unfold dec in *. rewrite fold_left_app, H3. cbn [fold_left]. lia.
Qed.

Lemma n2s_spec n : exists ds, n2s n = ds /\ ds <> [] /\ forallb ascii_digit ds = true /\ dec 0 ds = n.
Proof.
  unfold n2s. destruct (n2s_aux_spec (S (N.size_nat n)) n []) as (ds&E&H).
  - rewrite Nat2N.inj_succ, N.pow_succ_r'. assert (H : (n < 2 ^ N.of_nat (N.size_nat n))%N); [|lia].
    assert (E : N.of_nat (N.size_nat n) = N.size n). { destruct n as [|p]; [reflexivity|]. cbn. induction p; cbn; lia. }
    rewrite E. apply N.size_gt.
  - lia.
  - exists ds. rewrite E, app_nil_r. split; [reflexivity|exact H].
Qed.

Lemma digits_val_dec ds : forall a need, forallb ascii_digit ds = true -> (ds = [] -> need = false) -> digits_val ds a need = Some (dec a ds).
Proof.
  induction ds as [|c ds IH]; intros a need H Hn; cbn [digits_val]; [rewrite Hn; reflexivity|].
  cbn in H. apply andb_prop in H as [H1 H2]. rewrite (ascii_digit_val c H1). rewrite IH by auto. reflexivity.
Qed.
Lemma ascii_digit_is c : ascii_digit c = true -> is_digit c = true.
Proof. intro H. unfold is_digit. rewrite (ascii_digit_val c H). reflexivity. Qed.
Lemma ascii_digits_is ds : forallb ascii_digit ds = true -> forallb is_digit ds = true.
Proof. intro H. apply forallb_forall. intros c Hc. rewrite forallb_forall in H. apply ascii_digit_is, H, Hc. Qed.

Lemma n2s_numeral n : numeral (n2s n).
Proof. destruct (n2s_spec n) as (ds&->&H1&H2&_). split; [exact H1|]. apply ascii_digits_is, H2. Qed.
Lemma n2s_ascii n : forallb ascii_digit (n2s n) = true.
Proof. destruct (n2s_spec n) as (ds&->&H1&H2&_). exact H2. Qed.
Lemma py_int_n2s n : py_int (n2s n) = Ok (Z.of_N n).
Proof.
  destruct (py_int_numeral _ (n2s_numeral n)) as (k&Hk&->). do 2 f_equal.
  destruct (n2s_spec n) as (ds&E&H1&H2&H3). rewrite E in Hk. rewrite digits_val_dec in Hk by (auto; intros ->; congruence).
  apply some_inj in Hk. congruence.
Qed.
Lemma n2s_inj n n' : n2s n = n2s n' -> n = n'.
Proof. intro H. apply (f_equal py_int) in H. rewrite !py_int_n2s in H. apply ok_inj in H. lia. Qed.

Lemma z2s_nonneg z : (0 <= z)%Z -> z2s z = n2s (Z.to_N z).
Proof. intro H. destruct z; [reflexivity|reflexivity|lia]. Qed.
Lemma digits_minus ds : forallb is_digit ds = true -> strip (45%N :: ds) = 45%N :: ds.
Proof.
  intro H. apply strip_id.
  - intros c r E. injection E as <- <-. reflexivity.
  - intros c r E. assert (Hc : In c (45%N :: ds)) by (rewrite E; apply in_or_app; right; left; reflexivity).
    destruct Hc as [<-|Hc]; [reflexivity|]. rewrite forallb_forall in H. apply digit_not_space, H, Hc.
Qed.
Lemma py_int_z2s z : py_int (z2s z) = Ok z.
Proof.
  destruct z as [|p|p]; [reflexivity| |].
  - cbn [z2s]. rewrite py_int_n2s. reflexivity.
  - cbn [z2s]. destruct (n2s_spec (Npos p)) as (ds&->&H1&H2&H3). unfold py_int. rewrite digits_minus by (apply ascii_digits_is, H2).
    rewrite digits_val_dec by (auto; intros ->; congruence). rewrite H3. reflexivity.
Qed.
Lemma z2s_inj a b : z2s a = z2s b -> a = b.
Proof. intro H. apply (f_equal py_int) in H. rewrite !py_int_z2s in H. apply ok_inj in H. exact H. Qed.
Lemma z2s_numeral z : (0 <= z)%Z -> numeral (z2s z).
Proof. intro H. rewrite z2s_nonneg by exact H. apply n2s_numeral. Qed.
(** Characters of str(z): ASCII digits and the minus sign. *)
Definition int_char (c : N) : bool := ascii_digit c || N.eqb c 45.
Lemma z2s_chars z : forallb int_char (z2s z) = true.
Proof.
  assert (G : forall n, forallb int_char (n2s n) = true).
  { intro n. apply forallb_forall. intros c Hc. pose proof (n2s_ascii n) as H. rewrite forallb_forall in H. unfold int_char. rewrite (H c Hc). reflexivity. }
  destruct z; cbn [z2s]; [apply G|apply G|]. cbn [forallb]. rewrite G. reflexivity.
Qed.
Lemma z2s_ne z : z2s z <> [].
Proof. destruct z as [|p|p]; [discriminate| |discriminate]. cbn [z2s Z.to_N]. destruct (n2s_spec (Npos p)) as (ds&->&H&_); exact H. Qed.
Lemma z2s_first z : exists c r, z2s z = c :: r /\ int_char c = true.
Proof.
  pose proof (z2s_ne z) as H. pose proof (z2s_chars z) as H2. destruct (z2s z) as [|c r]; [congruence|]. exists c, r. split; [reflexivity|].
  cbn [forallb] in H2. apply andb_prop in H2 as [H2 _]. exact H2.
Qed.

(** ** split and join *)
Lemma split_on_none c s : ~ In c s -> split_on c s = [s].
Proof.
  induction s as [|x s IH]; intro H; [reflexivity|]. cbn [split_on]. destruct (N.eqb_spec x c) as [->|n]; [destruct H; left; reflexivity|].
  rewrite IH by (intro Hi; apply H; right; exact Hi). reflexivity.
Qed.
Lemma split_on_app c a b : ~ In c a -> split_on c (a ++ c :: b) = a :: split_on c b.
Proof.
  induction a as [|x a IH]; intro H; cbn [app split_on]; [rewrite N.eqb_refl; reflexivity|].
  destruct (N.eqb_spec x c) as [->|n]; [destruct H; left; reflexivity|]. rewrite IH by (intro Hi; apply H; right; exact Hi). reflexivity.
Qed.
Lemma split_on_join c l : l <> [] -> (forall x, In x l -> ~ In c x) -> split_on c (join [c] l) = l.
Proof.
  induction l as [|x l IH]; intros Hne H; [congruence|]. destruct l as [|y l].
  - apply split_on_none. apply H; left; reflexivity.
  - change (join [c] (x :: y :: l)) with (x ++ c :: join [c] (y :: l)).
    rewrite split_on_app by (apply H; left; reflexivity). f_equal. apply IH; [discriminate|]. intros z Hz; apply H; right; exact Hz.
Qed.
Lemma split_once_app c a b : ~ In c a -> split_once c (a ++ c :: b) = Some (a, b).
Proof.
  induction a as [|x a IH]; intro H; cbn [app split_once]; [rewrite N.eqb_refl; reflexivity|].
  destruct (N.eqb_spec x c) as [->|n]; [destruct H; left; reflexivity|]. rewrite IH by (intro Hi; apply H; right; exact Hi). reflexivity.
Qed.
Lemma In_join c sep l : In c (join sep l) -> In c sep \/ exists x, In x l /\ In c x.
Proof.
  induction l as [|x l IH]; intro H; [destruct H|]. destruct l as [|y l]; [right; exists x; split; [left; reflexivity|exact H]|].
  change (join sep (x :: y :: l)) with (x ++ sep ++ join sep (y :: l)) in H.
  apply in_app_or in H as [H|H]; [right; exists x; split; [left; reflexivity|exact H]|].
  apply in_app_or in H as [H|H]; [left; exact H|]. destruct (IH H) as [H'|(z&Hz&Hc)]; [left; exact H'|].
  right. exists z. split; [right; exact Hz|exact Hc].
Qed.
Lemma strip_nospace s : (forall c, In c s -> is_space c = false) -> strip s = s.
Proof.
  intro H. apply strip_id; intros c r E; apply H; rewrite E; [left; reflexivity|apply in_or_app; right; left; reflexivity].
Qed.
