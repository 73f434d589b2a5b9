(** * PropsImportMore: more of C47, the token with a checksum *)

From Coq Require Import Lia.
From Verif Require Import PyBase PyFacts ParserModel ParserSpec ParserFacts TextFacts RegexFacts NameqFacts UrlText DebtallyModel ImportSpec ImportFacts DebtallyFacts PropsImport.

(** ** Specification: base 32 of RFC 4648 *)
Definition base32_alphabet : str := u "ABCDEFGHIJKLMNOPQRSTUVWXYZ234567".
(** The first four characters stand for the first twenty bits, five bits each; v is the number these twenty bits write. *)
Definition base32_20 (v : N) : str := map (fun d => nth (N.to_nat d) base32_alphabet 0%N) [(v / 32768) mod 32; (v / 1024) mod 32; (v / 32) mod 32; v mod 32]%N.
(** The first twenty bits of three bytes *)
Definition bits20 (b0 b1 b2 : N) : N := ((b0 * 65536 + b1 * 256 + b2) / 16)%N.

Lemma b32_digit v : (v < 32)%N -> b32_char v = nth (N.to_nat v) base32_alphabet 0%N.
Proof.
  intro H. assert (G : forallb (fun n => N.eqb (b32_char (N.of_nat n)) (nth n base32_alphabet 0%N)) (seq 0 32) = true) by (vm_compute; reflexivity).
  rewrite forallb_forall in G. specialize (G (N.to_nat v)). rewrite N2Nat.id in G. apply N.eqb_eq, G. apply in_seq. lia.
Qed.
Lemma b32_spec b0 b1 b2 r : (b0 < 256 -> b1 < 256 -> b2 < 256 -> b32_4 (b0 :: b1 :: b2 :: r) = base32_20 (bits20 b0 b1 b2))%N.
Proof.
  intros H0 H1 H2. unfold b32_4, base32_20, bits20. cbn [map].
  assert (E0 : (b0 / 8 = ((b0 * 65536 + b1 * 256 + b2) / 16 / 32768) mod 32)%N) by (zify; Z.to_euclidean_division_equations; lia).
  assert (E1 : ((b0 mod 8) * 4 + b1 / 64 = ((b0 * 65536 + b1 * 256 + b2) / 16 / 1024) mod 32)%N) by (zify; Z.to_euclidean_division_equations; lia).
  assert (E2 : ((b1 / 2) mod 32 = ((b0 * 65536 + b1 * 256 + b2) / 16 / 32) mod 32)%N) by (zify; Z.to_euclidean_division_equations; lia).
  assert (E3 : ((b1 mod 2) * 16 + b2 / 16 = ((b0 * 65536 + b1 * 256 + b2) / 16) mod 32)%N) by (zify; Z.to_euclidean_division_equations; lia).
  rewrite E0, E1, E2, E3. rewrite !b32_digit by (apply N.mod_lt; lia). reflexivity.
Qed.
(** The token of an option whose abbreviation an earlier option has: its first sixteen letters and digits and the first four characters of
    the base 32 text of its checksum. *)
Theorem C47_checksum : forall sha1 a b bytes b0 b1 b2 rest, one_line a -> one_line b -> nota_free a -> nota_free b -> abbreviation a = abbreviation b ->
  ((20 < length b)%nat \/ forallb letter_digit b = false) -> ~ is_nota b ->
  utf8_encode b = Ok bytes -> sha1 bytes = b0 :: b1 :: b2 :: rest -> (b0 < 256 -> b1 < 256 -> b2 < 256 ->
  short_option_names sha1 [] [a; b] = Ok [abbreviation a; firstn 16 (filter letter_digit b) ++ base32_20 (bits20 b0 b1 b2)])%N.
Proof.
  intros sha1 a b bytes b0 b1 b2 rest Ha Hb Hfa Hfb E Hlong Hnn Hc Hs B0 B1 B2. cbn [short_option_names].
  destruct (nota_abbrev a Hfa (one_line_nl _ Ha)) as (Hnl&Ea). destruct (nota_abbrev b Hfb (one_line_nl _ Hb)) as (Hnl2&Eb).
  rewrite !short_token_plain by assumption. cbn [bind memb existsb]. rewrite <- Ea, <- Eb. rewrite <- E. cbn [memb existsb]. rewrite str_eqb_refl. cbn [orb].
  assert (Es : sub_nota 0 b = b) by (apply sub_nota_none; destruct Hfb as [Hfb|Hfb]; [contradiction|exact Hfb]). rewrite Es.
  assert (Et : deb_short_token sha1 b true = Ok (firstn 16 (filter letter_digit b) ++ base32_20 (bits20 b0 b1 b2))).
  { unfold deb_short_token. rewrite alnum_match by (apply one_line_nl, Hb). destruct (_ && _) eqn:Ec.
    - apply andb_prop in Ec as (El&Ec). apply andb_prop in Ec as (Ef&_). apply Nat.leb_le in El. destruct Hlong as [Hl|Hl]; [lia|]. change (forallb letter_digit b) with (forallb alnum b) in Hl. congruence.
    - rewrite split_ws_filter. unfold trunc_sha. rewrite Hc. cbn [bind]. rewrite Hs, (b32_spec _ _ _ _ B0 B1 B2). reflexivity. }
  rewrite Et. reflexivity.
Qed.
Print Assumptions C47_checksum.
Example C47_checksum_nonvacuous : base32_20 (bits20 201 255 31) = u "ZH7R" /\
  one_line (u "Plan A (first)") /\ one_line (u "Plan A, first") /\ nota_free (u "Plan A (first)") /\ nota_free (u "Plan A, first") /\ abbreviation (u "Plan A (first)") = abbreviation (u "Plan A, first") /\ ~ is_nota (u "Plan A, first") /\
  short_option_names (fun _ => [201; 255; 31; 7]%N) [] [u "Plan A (first)"; u "Plan A, first"] = Ok [u "PlanAfirst"; u "PlanAfirstZH7R"].
Proof.
  split; [vm_compute; reflexivity|]. split; [apply (printables [u "Plan A (first)"]); [reflexivity|left; reflexivity]|]. split; [apply (printables [u "Plan A, first"]); [reflexivity|left; reflexivity]|].
  split; [apply nota_free_dec; vm_compute; reflexivity|]. split; [apply nota_free_dec; vm_compute; reflexivity|]. split; [vm_compute; reflexivity|]. split; [vm_compute; discriminate|]. vm_compute. reflexivity.
Qed.
