(** * UrlFacts: encoding then decoding gives back the text. *)

From Coq Require Import Lia.
From Verif Require Import PyBase PyFacts UrlText.
Local Open Scope N_scope.

Local Ltac Zify.zify_post_hook ::= Z.div_mod_to_equations.

Lemma inr_true lo hi b : lo <= b -> b <= hi -> inr lo hi b = true.
Proof. intros H1 H2. unfold inr. apply andb_true_intro. split; apply N.leb_le; assumption. Qed.
Lemma inr_false lo hi b : b < lo \/ hi < b -> inr lo hi b = false.
Proof. intros H. unfold inr. destruct (N.leb_spec lo b), (N.leb_spec b hi); cbn; lia. Qed.

Lemma scalar_cases c : scalar c = true -> c < 55296 \/ 57344 <= c < 1114112.
Proof.
  unfold scalar. intro H. apply orb_prop in H as [H|H]; [left; apply N.ltb_lt; exact H|].
  apply andb_prop in H as [H1 H2]. apply N.leb_le in H1. apply N.ltb_lt in H2. right; lia.
Qed.

Lemma decode_char c r : scalar c = true -> utf8_decode (utf8_char c ++ r) = c :: utf8_decode r.
Proof.
  intro H. apply scalar_cases in H. unfold utf8_char.
  destruct (N.ltb_spec c 128) as [H1|H1].
  { cbn [app utf8_decode]. destruct (N.ltb_spec c 128); [reflexivity|lia]. }
  destruct (N.ltb_spec c 2048) as [H2|H2].
  { cbn [app utf8_decode]. destruct (N.ltb_spec (192 + c / 64) 128); [lia|].
    rewrite inr_true by lia. unfold cont. rewrite inr_true by lia. f_equal. lia. }
  destruct (N.ltb_spec c 65536) as [H3|H3].
  { cbn [app utf8_decode]. destruct (N.ltb_spec (224 + c / 4096) 128); [lia|].
    rewrite inr_false by lia. rewrite (inr_true 224) by lia.
    assert (Hs : second3 (224 + c / 4096) (128 + c / 64 mod 64) = true).
    { unfold second3. destruct (N.eqb_spec (224 + c / 4096) 224); [apply inr_true; lia|].
      destruct (N.eqb_spec (224 + c / 4096) 237); [apply inr_true; lia|]. apply inr_true; lia. }
    rewrite Hs. unfold cont. rewrite inr_true by lia. f_equal. lia. }
  cbn [app utf8_decode]. destruct (N.ltb_spec (240 + c / 262144) 128); [lia|].
  rewrite inr_false by lia. rewrite (inr_false 224) by lia. rewrite (inr_true 240) by lia.
  assert (Hs : second4 (240 + c / 262144) (128 + c / 4096 mod 64) = true).
  { unfold second4. destruct (N.eqb_spec (240 + c / 262144) 240); [apply inr_true; lia|].
    destruct (N.eqb_spec (240 + c / 262144) 244); apply inr_true; lia. }
  rewrite Hs. unfold cont. rewrite !inr_true by lia. f_equal. lia.
Qed.

Lemma decode_encode s : forallb scalar s = true -> utf8_decode (flat_map utf8_char s) = s.
Proof.
  induction s as [|c s IH]; intro H; [reflexivity|]. cbn in H. apply andb_prop in H as [H1 H2].
  cbn [flat_map]. rewrite decode_char by exact H1. f_equal. apply IH; exact H2.
Qed.

Lemma utf8_char_bytes c b : scalar c = true -> In b (utf8_char c) -> b < 256.
Proof.
  intros H. apply scalar_cases in H. unfold utf8_char.
  destruct (N.ltb_spec c 128); [intros [<-|[]]; lia|].
  destruct (N.ltb_spec c 2048); [intros [<-|[<-|[]]]; lia|].
  destruct (N.ltb_spec c 65536); [intros [<-|[<-|[<-|[]]]]; lia|].
  intros [<-|[<-|[<-|[<-|[]]]]]; lia.
Qed.

(** ** quote_plus *)

Lemma all_bytes (P : N -> bool) : forallb P (map N.of_nat (seq 0 256)) = true -> forall b, b < 256 -> P b = true.
Proof.
  intros H b Hb. rewrite forallb_forall in H. apply H. apply in_map_iff. exists (N.to_nat b). split; [lia|].
  apply in_seq. lia.
Qed.

(** What quote_plus makes of one byte, after plus signs are turned back into spaces, decodes to it. *)
Definition quoted_back (b : N) : bool :=
  match plus_to_space (quote_plus_byte b) with
  | [x] => (x =? b) && negb (x =? 37)
  | [p; h; l] => (p =? 37) && match unhex h, unhex l with Some a, Some c => 16 * a + c =? b | _, _ => false end
  | _ => false
  end.
Lemma quoted_back_all b : b < 256 -> quoted_back b = true.
Proof. apply all_bytes. vm_compute. reflexivity. Qed.

Lemma unquote_byte b r : b < 256 -> unquote_to_bytes (plus_to_space (quote_plus_byte b) ++ r) = b :: unquote_to_bytes r.
Proof.
  intro H. pose proof (quoted_back_all b H) as Q. unfold quoted_back in Q.
  destruct (plus_to_space (quote_plus_byte b)) as [|x [|y [|z [|]]]]; try discriminate.
  - apply andb_prop in Q as [Q1 Q2]. apply N.eqb_eq in Q1. subst x. apply negb_true_iff in Q2. cbn [app unquote_to_bytes].
    rewrite Q2. reflexivity.
  - apply andb_prop in Q as [Q1 Q2]. apply N.eqb_eq in Q1. subst x. cbn [app unquote_to_bytes]. change (37 =? 37) with true.
    cbn iota. destruct (unhex y) as [a|]; [|discriminate]. destruct (unhex z) as [c|]; [|discriminate].
    apply N.eqb_eq in Q2. rewrite Q2. reflexivity.
Qed.

Lemma unquote_bytes bs : (forall b, In b bs -> b < 256) ->
  unquote_to_bytes (plus_to_space (flat_map quote_plus_byte bs)) = bs.
Proof.
  induction bs as [|b bs IH]; intro H; [reflexivity|]. cbn [flat_map]. unfold plus_to_space in *. rewrite map_app.
  fold (plus_to_space (quote_plus_byte b)). rewrite unquote_byte by (apply H; left; reflexivity). f_equal. apply IH.
  intros x Hx; apply H; right; exact Hx.
Qed.

(** The characters quote_plus writes. *)
Definition url_char (c : N) : bool := always_safe c || (c =? 43) || (c =? 37).
Lemma quote_byte_chars b : b < 256 -> forallb url_char (quote_plus_byte b) = true.
Proof. apply (all_bytes (fun b => forallb url_char (quote_plus_byte b))). vm_compute. reflexivity. Qed.
Lemma forallb_flat_map {A B} (p : B -> bool) (f : A -> list B) l : (forall x, In x l -> forallb p (f x) = true) -> forallb p (flat_map f l) = true.
Proof.
  induction l as [|x l IH]; intro H; [reflexivity|]. cbn [flat_map]. rewrite forallb_app, (H x (or_introl eq_refl)). cbn.
  apply IH. intros y Hy; apply H; right; exact Hy.
Qed.
Lemma encode_bytes s : forallb scalar s = true -> forall b, In b (flat_map utf8_char s) -> b < 256.
Proof.
  intros H b Hb. apply in_flat_map in Hb as (c&Hc&Hb). rewrite forallb_forall in H. exact (utf8_char_bytes c b (H c Hc) Hb).
Qed.

Lemma quote_plus_ok s : forallb scalar s = true -> exists q, quote_plus s = Ok q /\ q = flat_map quote_plus_byte (flat_map utf8_char s).
Proof. intro H. unfold quote_plus, utf8_encode. rewrite H. eexists. split; reflexivity. Qed.
Lemma quote_plus_scalar s q : quote_plus s = Ok q -> forallb scalar s = true.
Proof. unfold quote_plus, utf8_encode. destruct (forallb scalar s); [reflexivity|discriminate]. Qed.
Lemma quote_plus_chars s q : quote_plus s = Ok q -> forallb url_char q = true.
Proof.
  intro H. pose proof (quote_plus_scalar _ _ H) as Hs. destruct (quote_plus_ok s Hs) as (q'&E&Eq). rewrite E in H.
  apply ok_inj in H. subst. apply forallb_flat_map. intros b Hb. apply quote_byte_chars. exact (encode_bytes s Hs b Hb).
Qed.

Lemma ascii_runs_all s : forall cur, forallb (fun c => c <? 128) s = true -> ascii_runs s cur = utf8_decode (unquote_to_bytes (rev cur ++ s)).
Proof.
  induction s as [|c s IH]; intros cur H; cbn [ascii_runs]; [rewrite app_nil_r; reflexivity|].
  cbn in H. apply andb_prop in H as [H1 H2]. rewrite H1. rewrite IH by exact H2. cbn [rev]. rewrite <- app_assoc. reflexivity.
Qed.

Lemma no_percent s : forallb (fun c => c <? 128) s = true -> existsb (N.eqb 37) s = false -> unquote_to_bytes s = s.
Proof.
  induction s as [|c s IH]; intros H Hp; [reflexivity|]. cbn [existsb] in Hp. apply orb_false_elim in Hp as [Hp1 Hp2].
  cbn in H. apply andb_prop in H as [_ H]. cbn [unquote_to_bytes]. rewrite N.eqb_sym, Hp1. f_equal. apply IH; assumption.
Qed.
Lemma decode_ascii s : forallb (fun c => c <? 128) s = true -> utf8_decode s = s.
Proof. induction s as [|c s IH]; intro H; [reflexivity|]. cbn in H. apply andb_prop in H as [H1 H2]. cbn [utf8_decode]. rewrite H1, IH by exact H2. reflexivity. Qed.

Lemma unquote_ascii s : forallb (fun c => c <? 128) s = true -> unquote s = utf8_decode (unquote_to_bytes s).
Proof.
  intro H. unfold unquote. destruct (existsb (N.eqb 37) s) eqn:Ep; [apply (ascii_runs_all s [] H)|].
  rewrite no_percent by assumption. rewrite decode_ascii by exact H. reflexivity.
Qed.

Lemma url_char_ascii c : url_char c = true -> c < 128.
Proof.
  unfold url_char, always_safe, inr. intro H.
  repeat (apply orb_prop in H as [H|H]); try (apply andb_prop in H as [_ H]; apply N.leb_le in H; lia); apply N.eqb_eq in H; lia.
Qed.

Lemma plus_to_space_ascii s : forallb url_char s = true -> forallb (fun c => c <? 128) (plus_to_space s) = true.
Proof.
  intro H. apply forallb_forall. intros c Hc. unfold plus_to_space in Hc. apply in_map_iff in Hc as (x&<-&Hx).
  rewrite forallb_forall in H. apply N.ltb_lt. destruct (x =? 43); [lia|]. apply url_char_ascii, H, Hx.
Qed.

(** unquote(quote_plus(s).replace('+', ' ')) = s *)
Lemma unquote_quote s q : quote_plus s = Ok q -> unquote (plus_to_space q) = s.
Proof.
  intro H. pose proof (quote_plus_scalar _ _ H) as Hs. rewrite unquote_ascii by (apply plus_to_space_ascii; exact (quote_plus_chars _ _ H)).
  destruct (quote_plus_ok s Hs) as (q'&E&Eq). rewrite E in H. apply ok_inj in H. subst q q'.
  rewrite unquote_bytes by (apply encode_bytes; exact Hs). apply decode_encode; exact Hs.
Qed.

(** quote_plus leaves a string alone exactly when all its characters are always safe. *)
Lemma safe_fixed s : forallb always_safe s = true -> quote_plus s = Ok s.
Proof.
  intro H.
  assert (A : forall c, always_safe c = true -> scalar c = true /\ utf8_char c = [c] /\ quote_plus_byte c = [c]).
  { intros c Hc. assert (Hl : c < 128) by (apply url_char_ascii; unfold url_char; rewrite Hc; reflexivity).
    split; [unfold scalar; destruct (N.ltb_spec c 55296); [reflexivity|lia]|].
    split; [unfold utf8_char; destruct (N.ltb_spec c 128); [reflexivity|lia]|].
    unfold quote_plus_byte, quote_byte. rewrite Hc. destruct (N.eqb_spec c 32) as [->|]; [discriminate|reflexivity]. }
  assert (Hs : forallb scalar s = true). { apply forallb_forall. intros c Hc. rewrite forallb_forall in H. apply A, H, Hc. }
  destruct (quote_plus_ok s Hs) as (q&->&->). f_equal.
  induction s as [|c s IH]; [reflexivity|]. cbn in H, Hs. apply andb_prop in H as [H1 H2]. apply andb_prop in Hs as [_ Hs].
  destruct (A c H1) as (_&E1&E2). cbn [flat_map]. rewrite E1. cbn [flat_map app]. rewrite E2. cbn [app]. f_equal. apply IH; assumption.
Qed.

Lemma fixed_safe s : quote_plus s = Ok s -> forallb always_safe s = true.
Proof.
  intro H. pose proof (quote_plus_chars _ _ H) as Hu. pose proof (quote_plus_scalar _ _ H) as Hs.
  destruct (quote_plus_ok s Hs) as (q&E&Eq). rewrite E in H. apply ok_inj in H. rewrite Eq in H. clear E Eq q Hs.
  assert (G : forall s, forallb url_char s = true ->
    (length s <= length (flat_map quote_plus_byte (flat_map utf8_char s)))%nat /\
    ((length (flat_map quote_plus_byte (flat_map utf8_char s)) <= length s)%nat -> forallb always_safe s = true)).
  { clear. induction s as [|c s IH]; intro H; [split; [cbn; lia|reflexivity]|].
    cbn [forallb] in H. apply andb_prop in H as [H1 H2]. destruct (IH H2) as [I1 I2]. pose proof (url_char_ascii c H1) as Hl.
    assert (E1 : utf8_char c = [c]) by (unfold utf8_char; destruct (N.ltb_spec c 128); [reflexivity|lia]).
    cbn [flat_map]. rewrite E1. cbn [app flat_map]. rewrite app_length. cbn [length forallb].
    unfold quote_plus_byte at 1 3. destruct (N.eqb_spec c 32) as [->|]; [discriminate|]. unfold quote_byte.
    destruct (always_safe c); cbn [length]; (split; [lia|]); intro Hlen; [|lia]. apply I2. lia. }
  apply (G s Hu). rewrite H. lia.
Qed.
