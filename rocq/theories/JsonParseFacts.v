(** * JsonParseFacts: json.loads reads back what json.dumps writes, and is total. *)

From Coq Require Import Lia.
From Verif Require Import PyBase PyFacts Jabmod UrlText JsonText ParserSpec ParserFacts TextFacts JsonFacts JsonParse.
Local Open Scope N_scope.
Local Ltac Zify.zify_post_hook ::= Z.div_mod_to_equations.

(** ** Strings *)
Lemma hexval_lower x : x < 16 -> hexval (lower_hex x) = Some x.
Proof.
  intro H. unfold hexval, lower_hex. destruct (N.ltb_spec x 10).
  - destruct (N.leb_spec 48 (48 + x)); [|lia]. destruct (N.leb_spec (48 + x) 57); [|lia]. cbn [andb]. f_equal. lia.
  - destruct (N.leb_spec 48 (87 + x)); [|lia]. destruct (N.leb_spec (87 + x) 57); [lia|]. cbn [andb].
    destruct (N.leb_spec 97 (87 + x)); [|lia]. destruct (N.leb_spec (87 + x) 102); [|lia]. cbn [andb]. f_equal. lia.
Qed.
Lemma hexval4_hex4 n : n < 65536 -> exists a b c d, hex4 n = [a; b; c; d] /\ hexval4 a b c d = Some n.
Proof.
  intro H. do 4 eexists. split; [reflexivity|]. unfold hexval4. rewrite !hexval_lower by (apply N.mod_upper_bound; discriminate). f_equal. lia.
Qed.
Lemma scan_json_char c r : scalar c = true -> scanstring (json_char c ++ r) = push c (scanstring r).
Proof.
  intro Hs. apply orb_prop in Hs. unfold json_char.
  destruct (N.eqb_spec c 34) as [->|N1]; [reflexivity|]. destruct (N.eqb_spec c 92) as [->|N2]; [reflexivity|].
  destruct (N.eqb_spec c 10) as [->|N3]; [reflexivity|]. destruct (N.eqb_spec c 13) as [->|N4]; [reflexivity|].
  destruct (N.eqb_spec c 9) as [->|N5]; [reflexivity|]. destruct (N.eqb_spec c 12) as [->|N6]; [reflexivity|].
  destruct (N.eqb_spec c 8) as [->|N7]; [reflexivity|].
  destruct ((32 <=? c) && (c <=? 126)) eqn:Ep.
  { apply andb_prop in Ep as (P1&P2). apply N.leb_le in P1. cbn [app scanstring]. destruct (N.eqb_spec c 34); [congruence|]. destruct (N.eqb_spec c 92); [congruence|]. destruct (N.ltb_spec c 32); [lia|]. reflexivity. }
  assert (Hc : c < 55296 \/ 57344 <= c < 1114112).
  { destruct Hs as [Hs|Hs]; [left; apply N.ltb_lt, Hs|right; apply andb_prop in Hs as [H1 H2]; apply N.leb_le in H1; apply N.ltb_lt in H2; lia]. }
  destruct (N.ltb_spec c 65536) as [Hlt|Hge].
  - destruct (hexval4_hex4 c Hlt) as (a&b&c'&d&E&V). rewrite E. cbn [app scanstring]. change (92 =? 34) with false. change (92 =? 92) with true. change (117 =? 117) with true. cbn match. rewrite V.
    unfold is_high. destruct (N.leb_spec 55296 c), (N.leb_spec c 56319); cbn [andb]; try reflexivity; lia.
  - destruct (hexval4_hex4 (55296 + (c - 65536) / 1024)) as (a1&b1&c1&d1&E1&V1); [lia|].
    destruct (hexval4_hex4 (56320 + (c - 65536) mod 1024)) as (a2&b2&c2&d2&E2&V2); [lia|].
    rewrite E1, E2. cbn [app scanstring]. change (92 =? 34) with false. change (92 =? 92) with true. change (117 =? 117) with true. cbn match. rewrite V1. cbn [andb].
    unfold is_high. destruct (N.leb_spec 55296 (55296 + (c - 65536) / 1024)); [|lia]. destruct (N.leb_spec (55296 + (c - 65536) / 1024) 56319); [|lia]. cbn [andb].
    rewrite V2. unfold is_low. destruct (N.leb_spec 56320 (56320 + (c - 65536) mod 1024)); [|lia]. destruct (N.leb_spec (56320 + (c - 65536) mod 1024) 57343); [|lia]. cbn [andb].
    f_equal. lia.
Qed.
Lemma scan_json_str s r : forallb scalar s = true -> scanstring (flat_map json_char s ++ 34 :: r) = Some (s, r).
Proof.
  induction s as [|c s IH]; intro H; [reflexivity|]. cbn [forallb] in H. apply andb_prop in H as (H1&H2). cbn [flat_map]. rewrite <- app_assoc, scan_json_char by exact H1. rewrite (IH H2). reflexivity.
Qed.

(** ** Numbers *)
Lemma n2s_aux_no_zero f : forall n acc, n <> 0 -> n < 2 ^ N.of_nat f -> exists c r, n2s_aux f n acc = c :: r /\ c <> 48.
Proof.
  induction f as [|f IH]; intros n acc Hn Hf; [cbn in Hf; lia|]. cbn [n2s_aux]. destruct (N.eqb_spec (n / 10) 0) as [E|E].
  - do 2 eexists. split; [reflexivity|]. lia.
  - apply IH; [exact E|]. rewrite Nat2N.inj_succ, N.pow_succ_r' in Hf. lia.
Qed.
Lemma n2s_no_zero n : n <> 0 -> exists c r, n2s n = c :: r /\ c <> 48.
Proof.
  intro H. unfold n2s. apply n2s_aux_no_zero; [exact H|]. rewrite Nat2N.inj_succ, N.pow_succ_r'.
  assert (E : N.of_nat (N.size_nat n) = N.size n). { destruct n as [|p]; [reflexivity|]. cbn. induction p; cbn; lia. }
  rewrite E. pose proof (N.size_gt n). lia.
Qed.
Definition no_digit (r : str) : Prop := match r with c :: _ => is_ascii_digit c = false | [] => True end.
Lemma span_digits_app ds r : forallb ascii_digit ds = true -> no_digit r -> span_digits (ds ++ r) = (ds, r).
Proof.
  induction ds as [|c ds IH]; intros H Hr; cbn [app].
  - destruct r as [|c r]; [reflexivity|]. cbn [span_digits]. cbn in Hr. rewrite Hr. reflexivity.
  - cbn [forallb] in H. apply andb_prop in H as (H1&H2). cbn [span_digits]. change (is_ascii_digit c) with (ascii_digit c). rewrite H1, (IH H2 Hr). reflexivity.
Qed.
(** What follows a value inside a JSON text. *)
Definition delimited (r : str) : Prop := match r with [] => True | c :: _ => is_json_ws c = true \/ c = 44 \/ c = 93 \/ c = 125 end.
Lemma delimited_no_digit r : delimited r -> no_digit r.
Proof.
  destruct r as [|c r]; [auto|]. cbn. unfold is_ascii_digit, is_json_ws. intro H.
  destruct (N.leb_spec 48 c), (N.leb_spec c 57); try reflexivity. destruct H as [H|H]; [|lia]. repeat (apply orb_prop in H as [H|H]); apply N.eqb_eq in H; lia.
Qed.
Lemma delimited_no_float r : delimited r -> float_follows r = false.
Proof.
  destruct r as [|c r]; [auto|]. cbn. unfold is_json_ws. intro H. destruct r as [|d r]; [reflexivity|].
  assert (G : c <> 46 /\ c <> 101 /\ c <> 69). { destruct H as [H|H]; [repeat (apply orb_prop in H as [H|H]); apply N.eqb_eq in H; lia|lia]. }
  destruct (N.eqb_spec c 46); [lia|]. destruct (N.eqb_spec c 101); [lia|]. destruct (N.eqb_spec c 69); [lia|]. reflexivity.
Qed.
Lemma scan_number_n2s neg n r : delimited r -> scan_number neg (n2s n ++ r) = Ok (JInt (if neg then Z.opp (Z.of_N n) else Z.of_N n), r).
Proof.
  intro Hr. pose proof (delimited_no_digit r Hr) as Hd. pose proof (delimited_no_float r Hr) as Hf. destruct (N.eq_dec n 0) as [->|Hn].
  - change (n2s 0) with [48]. cbn [app scan_number]. rewrite N.eqb_refl. rewrite Hf. reflexivity.
  - destruct (n2s_spec n) as (ds&E&H1&H2&H3). destruct (n2s_no_zero n Hn) as (c&t&E'&Hc). rewrite E' in E. subst ds. rewrite E'. cbn [app scan_number].
    destruct (N.eqb_spec c 48); [congruence|]. pose proof (span_digits_app (c :: t) r H2 Hd) as Es. cbn [app] in Es. change (span_digits (c :: (t ++ r)%list) = (c :: t, r)) in Es. rewrite Es. rewrite Hf. change (digits_to_N (c :: t)) with (dec 0 (c :: t)). rewrite H3. reflexivity.
Qed.

(** ** Values *)
(** No object, at any depth, has a key twice. *)
Fixpoint nodup_keys (j : json) : Prop :=
  match j with
  | JArr l => (fix go l := match l with [] => True | x :: r => nodup_keys x /\ go r end) l
  | JObj l => NoDup (map fst l) /\ (fix go (l : list (str * json)) := match l with [] => True | (k, x) :: r => nodup_keys x /\ go r end) l
  | _ => True
  end.
Lemma nodup_arr l : nodup_keys (JArr l) -> forall x, In x l -> nodup_keys x.
Proof. cbn [nodup_keys]. induction l as [|y r IH]; intros H x Hx; [destruct Hx|]. destruct H as (H1&H2). destruct Hx as [->|Hx]; auto. Qed.
Lemma nodup_obj l : nodup_keys (JObj l) -> forall k x, In (k, x) l -> nodup_keys x.
Proof.
  cbn [nodup_keys]. intros (_&H). induction l as [|[k' y] r IH]; intros k x Hx; [destruct Hx|]. destruct H as (H1&H2). destruct Hx as [E|Hx]; [injection E as -> ->; exact H1|apply (IH H2 k x Hx)].
Qed.
Fixpoint depth (j : json) : nat :=
  match j with
  | JArr l => S (list_max (map depth l))
  | JObj l => S (list_max (map (fun kv => depth (snd kv)) l))
  | _ => O
  end.
Lemma list_max_in {A} (f : A -> nat) l x : In x l -> (f x <= list_max (map f l))%nat.
Proof. induction l as [|y r IH]; intro H; [destruct H|]. cbn [map list_max fold_right]. destruct H as [->|H]; [apply Nat.le_max_l|]. etransitivity; [apply IH, H|]. apply Nat.le_max_r. Qed.

Definition is_ws_str (s : str) : Prop := forallb is_json_ws s = true.
Lemma skip_ws_app w s : is_ws_str w -> skip_ws (w ++ s) = skip_ws s.
Proof. induction w as [|c w IH]; intro H; [reflexivity|]. unfold is_ws_str in *. cbn [forallb] in H. apply andb_prop in H as (H1&H2). cbn [app skip_ws]. rewrite H1. apply IH, H2. Qed.
Lemma newline_ws indent level : is_ws_str (newline_indent indent level).
Proof. destruct indent as [k|]; [|reflexivity]. unfold is_ws_str. cbn [newline_indent forallb]. induction (k * level)%nat; [reflexivity|exact IHn]. Qed.
Lemma item_sep_ws indent level : exists w, item_sep indent level = 44 :: w /\ is_ws_str w.
Proof. destruct indent as [k|]; [exists (newline_indent (Some k) level); split; [reflexivity|apply newline_ws]|exists [32]; split; reflexivity]. Qed.

Lemma dumps_at_first indent level j : exists c r, dumps_at indent level j = c :: r /\ is_json_ws c = false /\ c <> 93 /\ c <> 125 /\ kind_of_char c = kind j.
Proof.
  destruct j as [|b|z|s|l|l]; try (destruct b); try (destruct l); cbn [dumps_at kind]; try (do 2 eexists; split; [reflexivity|repeat split; try reflexivity; discriminate]).
  destruct (z2s_first z) as (c&r&E&H). exists c, r. rewrite E. split; [reflexivity|].
  unfold int_char, ascii_digit in H. assert (G : c = 45 \/ 48 <= c <= 57).
  { apply orb_prop in H as [H|H]; [apply andb_prop in H as [H1 H2]; apply N.leb_le in H1, H2; lia|apply N.eqb_eq in H; lia]. }
  unfold is_json_ws, kind_of_char. repeat match goal with |- context [c =? ?k] => destruct (N.eqb_spec c k); [lia|] end. repeat split; lia.
Qed.
Lemma skip_ws_dumps indent level j r : skip_ws (dumps_at indent level j ++ r) = dumps_at indent level j ++ r.
Proof. destruct (dumps_at_first indent level j) as (c&t&->&H&_). cbn [app skip_ws]. rewrite H. reflexivity. Qed.
Lemma skip_ws_char c r : is_json_ws c = false -> skip_ws (c :: r) = c :: r.
Proof. intro H. cbn [skip_ws]. rewrite H. reflexivity. Qed.

Lemma scan_elems_spec scan (f : json -> str) sep close l : (forall x, In x l -> forall r, delimited r -> scan (f x ++ r) = Ok (x, r)) ->
  (forall x r, skip_ws (f x ++ r) = f x ++ r) -> (exists w, sep = 44 :: w /\ is_ws_str w) -> is_ws_str close ->
  forall m r, l <> [] -> (length l <= m)%nat -> scan_elems scan m (join sep (map f l) ++ close ++ 93 :: r) = Ok (l, r).
Proof.
  intros Hf Hs (w&->&Hw) Hc. induction l as [|x l IH]; intros m r Hl Hm; [congruence|]. destruct m as [|m]; [cbn in Hm; lia|]. cbn [scan_elems]. destruct l as [|y l].
  - cbn [map join]. rewrite Hf; [|left; reflexivity|]. 2: { destruct close as [|c close]; cbn; [auto|]. left. apply andb_prop in Hc as (H&_). exact H. }
    cbn [bind snd fst]. rewrite skip_ws_app by exact Hc. rewrite skip_ws_char by reflexivity. reflexivity.
  - cbn [map]. rewrite join_cons, <- app_assoc. rewrite Hf; [|left; reflexivity|cbn; auto]. cbn [bind snd fst]. rewrite <- app_assoc. cbn [app]. rewrite skip_ws_char by reflexivity. cbn match.
    change (44 =? 93) with false. change (44 =? 44) with true. cbn match. rewrite skip_ws_app by exact Hw.
    assert (E : skip_ws (join (44 :: w) (f y :: map f l) ++ close ++ 93 :: r) = join (44 :: w) (f y :: map f l) ++ close ++ 93 :: r).
    { destruct l; cbn [map]; [cbn [join]; apply Hs|]. rewrite join_cons, <- app_assoc. apply Hs. }
    rewrite E. change (f y :: map f l) with (map f (y :: l)). rewrite IH; [reflexivity| |discriminate|cbn in *; lia]. intros z Hz. apply Hf. right; exact Hz.
Qed.
Lemma scan_members_spec scan (f : json -> str) sep close l : (forall k x, In (k, x) l -> forallb scalar k = true /\ forall r, delimited r -> scan (f x ++ r) = Ok (x, r)) ->
  (forall x r, skip_ws (f x ++ r) = f x ++ r) -> (exists w, sep = 44 :: w /\ is_ws_str w) -> is_ws_str close ->
  forall m r, l <> [] -> (length l <= m)%nat -> scan_members scan m (join sep (map (fun kv => json_str (fst kv) ++ u ": " ++ f (snd kv)) l) ++ close ++ 125 :: r) = Ok (l, r).
Proof.
  intros Hf Hs (w&->&Hw) Hc. set (g := fun kv : str * json => json_str (fst kv) ++ u ": " ++ f (snd kv)).
  assert (Eg : forall k x t, g (k, x) ++ t = 34 :: flat_map json_char k ++ 34 :: 58 :: 32 :: f x ++ t).
  { intros k x t. unfold g, json_str. cbn [fst snd u app]. rewrite <- !app_assoc. reflexivity. }
  induction l as [|[k x] l IH]; intros m r Hl Hm; [congruence|]. destruct m as [|m]; [cbn in Hm; lia|]. destruct (Hf k x (or_introl eq_refl)) as (Hk&Hx). destruct l as [|[k2 y] l].
  - cbn [map join]. rewrite Eg. cbn [scan_members]. rewrite N.eqb_refl, scan_json_str by exact Hk. rewrite skip_ws_char by reflexivity. change (58 =? 58) with true. cbn match. cbn [skip_ws]. change (is_json_ws 32) with true. cbn match. rewrite Hs.
    rewrite Hx. 2: { destruct close as [|c close]; cbn; [auto|]. left. apply andb_prop in Hc as (H&_). exact H. }
    cbn [bind snd fst]. rewrite skip_ws_app by exact Hc. rewrite skip_ws_char by reflexivity. reflexivity.
  - cbn [map]. rewrite join_cons, <- app_assoc. rewrite Eg. cbn [scan_members]. rewrite N.eqb_refl, scan_json_str by exact Hk. rewrite skip_ws_char by reflexivity. change (58 =? 58) with true. cbn match. cbn [skip_ws]. change (is_json_ws 32) with true. cbn match. rewrite Hs.
    rewrite Hx; [|cbn; auto]. cbn [bind snd fst]. rewrite <- app_assoc. cbn [app]. rewrite skip_ws_char by reflexivity. cbn match. change (44 =? 125) with false. change (44 =? 44) with true. cbn match. rewrite skip_ws_app by exact Hw.
    match goal with |- context [skip_ws ?t] => assert (E : skip_ws t = t) end.
    { destruct l; cbn [map]; [cbn [join]|rewrite join_cons, <- app_assoc]; rewrite Eg; apply skip_ws_char; reflexivity. }
    rewrite E. assert (IH' := IH (fun k' z Hz => Hf k' z (or_intror Hz)) m r ltac:(discriminate) ltac:(cbn in *; lia)). cbn [map] in IH'. refine (eq_trans (f_equal (fun q => bind q _) IH') _). reflexivity.
Qed.

Lemma dict_of_pairs_acc {V} (l acc : list (str * V)) : NoDup (map fst (acc ++ l)) -> fold_left (fun d kv => dset (fst kv) (snd kv) d) l acc = acc ++ l.
Proof.
  revert acc. induction l as [|[k v] l IH]; intros acc H; cbn [fold_left]; [rewrite app_nil_r; reflexivity|]. cbn [fst snd].
  assert (E : dset k v acc = acc ++ [(k, v)]).
  { assert (Hk : ~ In k (map fst acc)). { rewrite map_app in H. cbn [map fst] in H. apply NoDup_remove_2 in H. intro Hi. apply H, in_or_app. left; exact Hi. }
    clear H IH. induction acc as [|[k' v'] acc IH]; cbn [dset]; [reflexivity|]. destruct (str_eqb_spec k k') as [E|E]; [exfalso; apply Hk; left; symmetry; exact E|]. rewrite IH; [reflexivity|]. intro Hi. apply Hk. right; exact Hi. }
  rewrite E, IH; rewrite <- app_assoc; [reflexivity|]. exact H.
Qed.
Lemma dict_of_pairs_id {V} (l : list (str * V)) : NoDup (map fst l) -> dict_of_pairs l = l.
Proof. intro H. apply (dict_of_pairs_acc l []). exact H. Qed.

Lemma join_length {A} (f : A -> str) sep l : (forall x, f x <> []) -> (length l <= length (join sep (map f l)))%nat.
Proof.
  intro H. induction l as [|x l IH]; [cbn; lia|]. destruct l as [|y l]; [cbn [map join length]|].
  - specialize (H x). destruct (f x); [congruence|cbn; lia].
  - cbn [map]. rewrite join_cons, !app_length. specialize (H x). cbn [map] in IH. destruct (f x); [congruence|]. cbn [length] in *. lia.
Qed.
Lemma dumps_at_ne indent level j : dumps_at indent level j <> [].
Proof. destruct (dumps_at_first indent level j) as (c&t&->&_). discriminate. Qed.

Theorem scan_dumps indent j : forall level n r, json_text_ok j = true -> nodup_keys j -> (depth j < n)%nat -> delimited r -> scan_once n (dumps_at indent level j ++ r) = Ok (j, r).
Proof.
  induction j as [|b|z|s|l IH|l IH] using json_ind2; intros level n r Ht Hk Hn Hr; (destruct n as [|n]; [lia|]).
  - reflexivity.
  - destruct b; reflexivity.
  - assert (G : forall m, scan_once (S n) (n2s m ++ r) = Ok (JInt (Z.of_N m), r)).
    { intro m. destruct (n2s_spec m) as (ds&E&H1&H2&_). rewrite <- (scan_number_n2s false m r Hr). rewrite E. destruct ds as [|c t]; [congruence|]. cbn [forallb] in H2. apply andb_prop in H2 as (H2&_).
      assert (Hc : 48 <= c <= 57). { unfold ascii_digit in H2. apply andb_prop in H2 as [Q1 Q2]. apply N.leb_le in Q1, Q2. lia. }
      cbn [app scan_once u starts_with].
      change (N_of_ascii "n") with 110. change (N_of_ascii "t") with 116. change (N_of_ascii "f") with 102. change (N_of_ascii "N") with 78. change (N_of_ascii "I") with 73.
      repeat match goal with |- context [c =? ?k] => destruct (N.eqb_spec c k); [lia|] | |- context [?k =? c] => destruct (N.eqb_spec k c); [lia|] end. reflexivity. }
    cbn [dumps_at]. destruct z as [|p|p]; cbn [z2s Z.to_N]; try apply G.
    change (scan_number true (n2s (N.pos p) ++ r) = Ok (JInt (Z.neg p), r)). rewrite (scan_number_n2s true (N.pos p) r Hr). reflexivity.
  - cbn [dumps_at]. unfold json_str. cbn [app]. rewrite <- app_assoc. cbn [app scan_once]. rewrite N.eqb_refl, scan_json_str by exact Ht. reflexivity.
  - destruct l as [|x l]; [reflexivity|]. set (L := x :: l) in *.
    change (dumps_at indent level (JArr L)) with (u "[" ++ newline_indent indent (S level) ++ join (item_sep indent (S level)) (map (dumps_at indent (S level)) L) ++ newline_indent indent level ++ u "]").
    rewrite <- !app_assoc. cbn [u app]. change (N_of_ascii "[") with 91. change (N_of_ascii "]") with 93. cbn [scan_once]. change (91 =? 34) with false. change (91 =? 123) with false. change (91 =? 91) with true. cbn match.
    rewrite skip_ws_app by apply newline_ws.
    set (body := join (item_sep indent (S level)) (map (dumps_at indent (S level)) L) ++ newline_indent indent level ++ 93 :: r).
    assert (E : exists c t, body = c :: t /\ is_json_ws c = false /\ c <> 93).
    { destruct (dumps_at_first indent (S level) x) as (c&t&Ec&H1&H2&_). unfold body, L. destruct l; cbn [map]; [cbn [join]|rewrite join_cons, <- app_assoc]; rewrite Ec; cbn [app]; do 2 eexists; split; [reflexivity|auto|reflexivity|auto]. }
    destruct E as (c&t&Eb&Hc1&Hc2). assert (Esk : skip_ws body = c :: t). { rewrite Eb. apply skip_ws_char, Hc1. }
    rewrite Esk. destruct (N.eqb_spec c 93); [congruence|]. rewrite <- Eb. unfold body.
    rewrite (scan_elems_spec (scan_once n) (dumps_at indent (S level)) (item_sep indent (S level)) (newline_indent indent level) L).
    + reflexivity.
    + intros y Hy t' Ht'. apply IH; [exact Hy| | | |exact Ht'].
      * cbn [json_text_ok] in Ht. rewrite forallb_forall in Ht. apply Ht, Hy.
      * apply (nodup_arr L Hk y Hy).
      * pose proof (list_max_in depth L y Hy) as Hd. cbn [depth] in Hn. lia.
    + intros y t'. apply skip_ws_dumps.
    + apply item_sep_ws.
    + apply newline_ws.
    + discriminate.
    + rewrite !app_length. pose proof (join_length (dumps_at indent (S level)) (item_sep indent (S level)) L (dumps_at_ne indent (S level))). lia.
  - destruct l as [|[k0 x] l]; [reflexivity|]. set (L := (k0, x) :: l) in *. set (g := fun kv : str * json => json_str (fst kv) ++ u ": " ++ dumps_at indent (S level) (snd kv)).
    change (dumps_at indent level (JObj L)) with (u "{" ++ newline_indent indent (S level) ++ join (item_sep indent (S level)) (map g L) ++ newline_indent indent level ++ u "}").
    rewrite <- !app_assoc. cbn [u app]. change (N_of_ascii "{") with 123. change (N_of_ascii "}") with 125. cbn [scan_once]. change (123 =? 34) with false. change (123 =? 123) with true. cbn match.
    rewrite skip_ws_app by apply newline_ws.
    set (body := join (item_sep indent (S level)) (map g L) ++ newline_indent indent level ++ 125 :: r).
    assert (E : exists t, body = 34 :: t).
    { unfold body, L. destruct l; cbn [map]; [cbn [join]|rewrite join_cons, <- app_assoc]; unfold g at 1; unfold json_str; cbn [app]; eexists; reflexivity. }
    destruct E as (t&Eb). assert (Esk : skip_ws body = 34 :: t). { rewrite Eb. apply skip_ws_char. reflexivity. }
    rewrite Esk. change (34 =? 125) with false. cbn match. rewrite <- Eb. unfold body.
    assert (Hnd : NoDup (map fst L)) by (apply Hk).
    rewrite (scan_members_spec (scan_once n) (dumps_at indent (S level)) (item_sep indent (S level)) (newline_indent indent level) L).
    + cbn [bind fst snd]. rewrite (dict_of_pairs_id L Hnd). reflexivity.
    + intros k y Hy. cbn [json_text_ok] in Ht. rewrite forallb_forall in Ht. specialize (Ht (k, y) Hy). cbn [fst snd] in Ht. apply andb_prop in Ht as (Ht1&Ht2). split; [exact Ht1|].
      intros t' Ht'. apply (IH k y Hy); [exact Ht2|apply (nodup_obj L Hk k y Hy)| |exact Ht'].
      pose proof (list_max_in (fun kv : str * json => depth (snd kv)) L (k, y) Hy) as Hd. cbn [depth] in Hn. cbn [snd] in Hd. lia.
    + intros y t'. apply skip_ws_dumps.
    + apply item_sep_ws.
    + apply newline_ws.
    + discriminate.
    + rewrite !app_length. assert (Hg : forall kv, g kv <> []). { intros [? ?]. unfold g, json_str. discriminate. }
      etransitivity; [apply (join_length g (item_sep indent (S level)) L Hg)|]. unfold str in *. lia.
Qed.

Lemma depth_length indent j : forall level, (depth j <= length (dumps_at indent level j))%nat.
Proof.
  assert (G : forall A (f : A -> str) sep l x, In x l -> (length (f x) <= length (join sep (map f l)))%nat).
  { intros A f sep l. induction l as [|y l IH]; intros x Hx; [destruct Hx|]. destruct l as [|z l]; [destruct Hx as [->|[]]; cbn; lia|].
    cbn [map]. rewrite join_cons, !app_length. destruct Hx as [->|Hx]; [lia|]. specialize (IH x Hx). cbn [map] in IH. lia. }
  assert (M : forall l k, (forall x, In x l -> (x <= k)%nat) -> (list_max l <= k)%nat).
  { induction l as [|x l IH]; intros k H; [cbn; lia|]. cbn [list_max fold_right]. apply Nat.max_lub; [apply H; left; reflexivity|apply IH; intros y Hy; apply H; right; exact Hy]. }
  induction j as [|b|z|s|l IH|l IH] using json_ind2; intro level; try (cbn [depth]; lia); cbn [depth].
  - destruct l as [|x l]; [cbn; lia|]. cbn [dumps_at]. rewrite !app_length. cbn [u length].
    enough (list_max (map depth (x :: l)) <= length (join (item_sep indent (S level)) (map (dumps_at indent (S level)) (x :: l))))%nat by lia.
    apply M. intros d Hd. apply in_map_iff in Hd as (y&<-&Hy). etransitivity; [apply (IH y Hy (S level))|]. apply G, Hy.
  - destruct l as [|x l]; [cbn; lia|]. cbn [dumps_at]. rewrite !app_length. cbn [u length].
    set (g := fun kv : str * json => json_str (fst kv) ++ u ": " ++ dumps_at indent (S level) (snd kv)).
    enough (list_max (map (fun kv : str * json => depth (snd kv)) (x :: l)) <= length (join (item_sep indent (S level)) (map g (x :: l))))%nat by (unfold g in *; cbn [map] in *; unfold g in *; cbn [u app] in *; lia).
    apply M. intros d Hd. apply in_map_iff in Hd as ([k y]&<-&Hy). cbn [snd]. etransitivity; [apply (IH k y Hy (S level))|]. etransitivity; [|apply G, Hy]. unfold g. cbn [snd fst]. rewrite !app_length. lia.
Qed.

Lemma loads_dumps indent j : json_text_ok j = true -> nodup_keys j -> json_loads (dumps_at indent 0 j) = Ok j.
Proof.
  intros Ht Hk. unfold json_loads. destruct (dumps_at_first indent 0 j) as (c&t&E&Hc&_).
  assert (Hb : match dumps_at indent 0 j with 65279 :: _ => true | _ => false end = false).
  { pose proof (json_text_ok j). clear - E Hc. rewrite E. revert E. destruct j as [|b|z|s|l|l]; try (destruct b); try (destruct l); cbn [dumps_at]; intro E; try (injection E as <- _; reflexivity).
    destruct (z2s_first z) as (c'&r'&E'&H). rewrite E' in E. injection E as -> _. unfold int_char, ascii_digit in H.
    destruct c as [|p]; [reflexivity|]. repeat (destruct p as [p|p|]; try reflexivity). discriminate H. }
  pose proof (scan_dumps indent j 0 (S (length (dumps_at indent 0 j))) [] Ht Hk) as S1. rewrite app_nil_r in S1.
  pose proof (skip_ws_dumps indent 0 j []) as S2. rewrite app_nil_r in S2. pose proof (depth_length indent j 0) as S3.
  rewrite S2, S1 by (lia || exact I). cbn [bind snd fst skip_ws].
  destruct (dumps_at indent 0 j) as [|a w]; [reflexivity|]. clear - Hb. destruct a as [|p]; [reflexivity|]. repeat (destruct p as [p|p|]; try reflexivity). discriminate Hb.
Qed.

Lemma dumps_compact j : forall level, dumps_at None level j = json_dumps j.
Proof.
  induction j as [|b|z|s|l IH|l IH] using json_ind2; intro level; try reflexivity.
  - destruct l as [|x l]; [reflexivity|]. cbn [dumps_at json_dumps newline_indent item_sep app]. f_equal. f_equal. f_equal. apply map_ext_in. intros y Hy. apply IH, Hy.
  - destruct l as [|x l]; [reflexivity|]. cbn [dumps_at json_dumps newline_indent item_sep app]. f_equal. f_equal. f_equal. apply map_ext_in. intros [k y] Hy. cbn [fst snd]. rewrite (IH k y Hy). reflexivity.
Qed.

(** ** Totality: the bounds never run out, and the only errors are ValueError (JSONDecodeError) and floats. *)
Lemma push_some c x s r : push c x = Some (s, r) -> exists s', x = Some (s', r).
Proof. destruct x as [[s' r']|]; intro H; [|discriminate H]. cbn [push] in H. injection H as _ <-. eauto. Qed.
Lemma scanstring_consumes : forall k s t r, (length s <= k)%nat -> scanstring s = Some (t, r) -> (length r < length s)%nat.
Proof.
  induction k as [|k IH]; intros s t r Hk H; (destruct s as [|c s]; [discriminate H|]); [cbn in Hk; lia|]. cbn [length] in Hk.
  assert (P : forall x s1, (length s1 <= length s)%nat -> push x (scanstring s1) = Some (t, r) -> (length r < length (c :: s))%nat).
  { intros x s1 Hl Hp. apply push_some in Hp as (s'&Hp). apply IH in Hp; [|lia]. cbn [length]. lia. }
  cbn [scanstring] in H. destruct (c =? 34); [injection H as _ <-; cbn; lia|]. destruct (c =? 92).
  - destruct s as [|e s1]; [discriminate H|]. destruct (e =? 117).
    + destruct s1 as [|a [|b [|c' [|d s2]]]]; try discriminate H. destruct (hexval4 a b c' d) as [n|]; [|discriminate H].
      assert (L : (length s2 <= length (e :: a :: b :: c' :: d :: s2))%nat) by (cbn; lia).
      destruct (is_high n); [|apply (P _ _ L H)].
      destruct s2 as [|x [|y [|a2 [|b2 [|c2 [|d2 s3]]]]]]; try apply (P _ _ L H).
      destruct ((x =? 92) && (y =? 117)); [|apply (P _ _ L H)]. destruct (hexval4 a2 b2 c2 d2) as [m|]; [|discriminate H]. destruct (is_low m); [|apply (P _ _ L H)].
      refine (P _ _ _ H). cbn. lia.
    + destruct (escape_val e); [|discriminate H]. refine (P _ _ _ H). cbn. lia.
  - destruct (c <? 32); [discriminate H|]. refine (P _ _ _ H). lia.
Qed.
Lemma skip_ws_length s : (length (skip_ws s) <= length s)%nat.
Proof. induction s as [|c s IH]; [cbn; lia|]. cbn [skip_ws]. destruct (is_json_ws c); cbn [length]; lia. Qed.
Lemma span_digits_length s : length s = (length (fst (span_digits s)) + length (snd (span_digits s)))%nat.
Proof. induction s as [|c s IH]; [reflexivity|]. cbn [span_digits]. destruct (is_ascii_digit c); cbn [fst snd length]; lia. Qed.
Definition fine {A} (x : result (A * str)) (s : str) : Prop :=
  match x with Ok (_, r) => (length r < length s)%nat | Err e => e = ValueError \/ e = GenericException end.
Lemma scan_number_fine neg s : fine (scan_number neg s) s.
Proof.
  destruct s as [|c r]; [left; reflexivity|]. unfold scan_number. destruct (c =? 48).
  - destruct (float_follows r); [right; reflexivity|]. cbn. lia.
  - pose proof (span_digits_length (c :: r)) as L. destruct (span_digits (c :: r)) as [ds rest]. cbn [fst snd] in L. destruct ds as [|d ds]; [destruct (starts_with _ _); [right|left]; reflexivity|].
    destruct (float_follows rest); [right; reflexivity|]. cbn [fine length] in *. lia.
Qed.
Lemma fine_weaken {A} (x : result (A * str)) s s' : fine x s -> (length s <= length s')%nat -> fine x s'.
Proof. destruct x as [[a r]|e]; cbn; [lia|auto]. Qed.
Lemma scan_elems_fine scan n : (forall s, (length s < n)%nat -> fine (scan s) s) -> forall m s, (length s <= m)%nat -> (1 <= m)%nat -> (length s < n)%nat -> fine (scan_elems scan m s) s.
Proof.
  intro Hs. induction m as [|m IH]; intros s L1 L2 L3; [lia|]. cbn [scan_elems]. specialize (Hs s L3). destruct (scan s) as [[v r]|e]; [|exact Hs]. cbn [bind fst snd fine] in *.
  pose proof (skip_ws_length r) as L4. destruct (skip_ws r) as [|c r']; [left; reflexivity|]. cbn [length] in L4. destruct (c =? 93); [cbn; lia|]. destruct (c =? 44); [|left; reflexivity].
  pose proof (skip_ws_length r') as L5. assert (G : fine (scan_elems scan m (skip_ws r')) (skip_ws r')) by (apply IH; lia). destruct (scan_elems scan m (skip_ws r')) as [[vs r'']|e]; cbn [bind fine fst snd] in *; [lia|exact G].
Qed.
Lemma scan_members_fine scan n : (forall s, (length s < n)%nat -> fine (scan s) s) -> forall m s, (length s <= m)%nat -> (1 <= m)%nat -> (length s < n)%nat -> fine (scan_members scan m s) s.
Proof.
  intro Hs. induction m as [|m IH]; intros s L1 L2 L3; [lia|]. cbn [scan_members]. destruct s as [|q s1]; [left; reflexivity|]. destruct (q =? 34); [|left; reflexivity].
  destruct (scanstring s1) as [[k s2]|] eqn:Es; [|left; reflexivity]. apply (scanstring_consumes (length s1)) in Es; [|lia]. cbn [length] in *.
  pose proof (skip_ws_length s2) as L4. destruct (skip_ws s2) as [|c s3]; [left; reflexivity|]. cbn [length] in L4. destruct (c =? 58); [|left; reflexivity].
  pose proof (skip_ws_length s3) as L5. assert (G0 : fine (scan (skip_ws s3)) (skip_ws s3)) by (apply Hs; lia). destruct (scan (skip_ws s3)) as [[v r]|e]; [|exact G0]. cbn [bind fst snd fine] in *.
  pose proof (skip_ws_length r) as L6. destruct (skip_ws r) as [|e r']; [left; reflexivity|]. cbn [length] in L6. destruct (e =? 125); [cbn; lia|]. destruct (e =? 44); [|left; reflexivity].
  pose proof (skip_ws_length r') as L7. assert (G : fine (scan_members scan m (skip_ws r')) (skip_ws r')) by (apply IH; lia). destruct (scan_members scan m (skip_ws r')) as [[vs r'']|x0]; cbn [bind fine fst snd length] in *; [lia|exact G].
Qed.
Lemma starts_with_length p s r : starts_with p s = Some r -> length s = (length p + length r)%nat.
Proof. revert s. induction p as [|x p IH]; intros [|y s] H; cbn [starts_with] in H; try discriminate H; try (injection H as <-; reflexivity). destruct (x =? y); [|discriminate H]. apply IH in H. cbn [length]. lia. Qed.
Lemma scan_once_fine n : forall s, (length s < n)%nat -> fine (scan_once n s) s.
Proof.
  induction n as [|n IH]; intros s L; [lia|]. cbn [scan_once]. destruct s as [|c r]; [left; reflexivity|]. cbn [length] in L.
  destruct (c =? 34). { destruct (scanstring r) as [[t r']|] eqn:E; [|left; reflexivity]. apply (scanstring_consumes (length r)) in E; [|lia]. cbn. lia. }
  destruct (c =? 123).
  { pose proof (skip_ws_length r) as L1. destruct (skip_ws r) as [|e r'] eqn:E; [left; reflexivity|]. cbn [length] in L1. destruct (e =? 125); [cbn; lia|]. 
    assert (G : fine (scan_members (scan_once n) (length r) (e :: r')) (e :: r')). { apply (scan_members_fine _ n IH); cbn [length]; lia. }
    destruct (scan_members (scan_once n) (length r) (e :: r')) as [[ms r'']|x]; cbn [bind fine fst snd] in *; [cbn [length] in *; lia|exact G]. }
  destruct (c =? 91).
  { pose proof (skip_ws_length r) as L1. destruct (skip_ws r) as [|e r'] eqn:E; [left; reflexivity|]. cbn [length] in L1. destruct (e =? 93); [cbn; lia|]. 
    assert (G : fine (scan_elems (scan_once n) (length r) (e :: r')) (e :: r')). { apply (scan_elems_fine _ n IH); cbn [length]; lia. }
    destruct (scan_elems (scan_once n) (length r) (e :: r')) as [[ms r'']|x]; cbn [bind fine fst snd] in *; [cbn [length] in *; lia|exact G]. }
  destruct (starts_with (u "null") (c :: r)) as [r'|] eqn:E1. { apply starts_with_length in E1. cbn [length u fine] in *. lia. }
  destruct (starts_with (u "true") (c :: r)) as [r'|] eqn:E2. { apply starts_with_length in E2. cbn [length u fine] in *. lia. }
  destruct (starts_with (u "false") (c :: r)) as [r'|] eqn:E3. { apply starts_with_length in E3. cbn [length u fine] in *. lia. }
  destruct (c =? 45). { apply (fine_weaken _ r); [apply scan_number_fine|cbn; lia]. }
  destruct (starts_with (u "NaN") (c :: r)); [right; reflexivity|]. destruct (starts_with (u "Infinity") (c :: r)); [right; reflexivity|]. apply scan_number_fine.
Qed.
Lemma loads_total s : (exists j, json_loads s = Ok j) \/ json_loads s = Err ValueError \/ json_loads s = Err GenericException.
Proof.
  unfold json_loads. assert (G : let x := bind (scan_once (S (length s)) (skip_ws s)) (fun vr => match skip_ws (snd vr) with [] => Ok (fst vr) | _ => Err ValueError end) in (exists j, x = Ok j) \/ x = Err ValueError \/ x = Err GenericException).
  { pose proof (skip_ws_length s) as L. assert (F : fine (scan_once (S (length s)) (skip_ws s)) (skip_ws s)) by (apply scan_once_fine; lia).
    destruct (scan_once (S (length s)) (skip_ws s)) as [[v r]|e]; cbn [bind fst snd] in *; [|destruct F as [->| ->]; auto]. destruct (skip_ws r); eauto. }
  destruct s as [|a w]; [exact G|]. destruct a as [|p]; [exact G|]. repeat (destruct p as [p|p|]; try exact G).
Qed.
