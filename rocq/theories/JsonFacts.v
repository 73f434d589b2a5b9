(** * JsonFacts: json.dumps is injective on values whose strings are Unicode text. *)

From Coq Require Import Lia.
From Verif Require Import PyBase PyFacts Jabmod UrlText JsonText ParserSpec ParserFacts TextFacts.
Local Open Scope N_scope.

Local Ltac Zify.zify_post_hook ::= Z.div_mod_to_equations.

Section JsonInd.
  Variable P : json -> Prop.
  Hypothesis HNull : P JNull.
  Hypothesis HBool : forall b, P (JBool b).
  Hypothesis HInt : forall z, P (JInt z).
  Hypothesis HStr : forall s, P (JStr s).
  Hypothesis HArr : forall l, (forall x, In x l -> P x) -> P (JArr l).
  Hypothesis HObj : forall l, (forall k x, In (k, x) l -> P x) -> P (JObj l).
  Fixpoint json_ind2 (j : json) : P j :=
    match j with
    | JNull => HNull
    | JBool b => HBool b
    | JInt z => HInt z
    | JStr s => HStr s
    | JArr l => HArr l ((fix go (l : list json) : forall x, In x l -> P x :=
                    match l with
                    | [] => fun x H => match H with end
                    | y :: r => fun x H => match H with
                                           | or_introl e => eq_ind y P (json_ind2 y) x e
                                           | or_intror H' => go r x H'
                                           end
                    end) l)
    | JObj l => HObj l ((fix go (l : list (str * json)) : forall k x, In (k, x) l -> P x :=
                    match l with
                    | [] => fun k x H => match H with end
                    | y :: r => fun k x H => match H with
                                           | or_introl e => eq_ind (snd y) P (json_ind2 (snd y)) x (f_equal snd e)
                                           | or_intror H' => go r k x H'
                                           end
                    end) l)
    end.
End JsonInd.

(** Values all of whose strings (keys included) are Unicode text. *)
Fixpoint json_text_ok (j : json) : bool :=
  match j with
  | JStr s => forallb scalar s
  | JArr l => forallb json_text_ok l
  | JObj l => forallb (fun kv => forallb scalar (fst kv) && json_text_ok (snd kv)) l
  | _ => true
  end.

(** ** Characters *)
Definition unhex4 (a b c d : N) : N :=
  let h x := if x <? 58 then x - 48 else x - 87 in
  4096 * h a + 256 * h b + 16 * h c + h d.
Lemma unhex4_hex4 n : n < 65536 -> exists a b c d, hex4 n = [a; b; c; d] /\ unhex4 a b c d = n.
Proof.
  intro H. do 4 eexists. split; [reflexivity|]. unfold unhex4.
  assert (G : forall x, x < 16 -> (if lower_hex x <? 58 then lower_hex x - 48 else lower_hex x - 87) = x).
  { intros x Hx. unfold lower_hex. destruct (N.ltb_spec x 10).
    - destruct (N.ltb_spec (48 + x) 58); lia.
    - destruct (N.ltb_spec (87 + x) 58); lia. }
  rewrite !G by (apply N.mod_upper_bound; discriminate). lia.
Qed.

(** Reads one character back. *)
Definition unjson (s : str) : option (N * str) :=
  match s with
  | 92 :: 117 :: a :: b :: c :: d :: r =>
      let n := unhex4 a b c d in
      if (55296 <=? n) && (n <=? 56319) then
        match r with
        | _ :: _ :: a' :: b' :: c' :: d' :: r' =>
            Some (65536 + 1024 * (n - 55296) + (unhex4 a' b' c' d' - 56320), r')
        | _ => None
        end
      else Some (n, r)
  | 92 :: 34 :: r => Some (34, r)
  | 92 :: 92 :: r => Some (92, r)
  | 92 :: 110 :: r => Some (10, r)
  | 92 :: 114 :: r => Some (13, r)
  | 92 :: 116 :: r => Some (9, r)
  | 92 :: 102 :: r => Some (12, r)
  | 92 :: 98 :: r => Some (8, r)
  | c :: r => Some (c, r)
  | [] => None
  end.
Lemma unjson_plain c r : c <> 92 -> unjson (c :: r) = Some (c, r).
Proof.
  intro H. unfold unjson. destruct c as [|p]; [reflexivity|].
  repeat (destruct p as [p|p|]; try reflexivity). congruence.
Qed.
Lemma unjson_char c r : scalar c = true -> unjson (json_char c ++ r) = Some (c, r).
Proof.
  intro Hs. apply orb_prop in Hs. unfold json_char.
  destruct (N.eqb_spec c 34) as [->|]; [reflexivity|].
  destruct (N.eqb_spec c 92) as [->|]; [reflexivity|].
  destruct (N.eqb_spec c 10) as [->|]; [reflexivity|].
  destruct (N.eqb_spec c 13) as [->|]; [reflexivity|].
  destruct (N.eqb_spec c 9) as [->|]; [reflexivity|].
  destruct (N.eqb_spec c 12) as [->|]; [reflexivity|].
  destruct (N.eqb_spec c 8) as [->|]; [reflexivity|].
  destruct (N.leb_spec 32 c), (N.leb_spec c 126); cbn [andb]; try (cbn [app]; apply unjson_plain; assumption).
  all: assert (Hc : c < 55296 \/ 57344 <= c < 1114112) by
    (destruct Hs as [Hs|Hs]; [left; apply N.ltb_lt, Hs|right; apply andb_prop in Hs as [H1 H2]; apply N.leb_le in H1; apply N.ltb_lt in H2; lia]).
  all: destruct (N.ltb_spec c 65536) as [Hlt|Hge].
  all: try (destruct (unhex4_hex4 c Hlt) as (a&b'&c'&d&E&V); rewrite E; cbn [app unjson]; rewrite V;
    destruct (N.leb_spec 55296 c), (N.leb_spec c 56319); cbn [andb]; try reflexivity; lia).
  all: try lia.
  destruct (unhex4_hex4 (55296 + (c - 65536) / 1024)) as (a1&b1&c1&d1&E1&V1); [lia|].
  destruct (unhex4_hex4 (56320 + (c - 65536) mod 1024)) as (a2&b2&c2&d2&E2&V2); [lia|].
  rewrite E1, E2. cbn [app unjson]. rewrite V1, V2.
  destruct (N.leb_spec 55296 (55296 + (c - 65536) / 1024)); [|lia].
  destruct (N.leb_spec (55296 + (c - 65536) / 1024) 56319); [|lia]. cbn [andb]. do 2 f_equal. lia.
Qed.
Lemma json_char_not_quote c r t : json_char c ++ r <> 34 :: t.
Proof.
  intro H.
  assert (G : forall x y, 92 :: x <> 34 :: (y : str)) by (intros; discriminate).
  unfold json_char in H.
  repeat match type of H with (if ?b then _ else _) ++ _ = _ => destruct b eqn:? end; cbn [app] in H; try discriminate H.
  injection H as -> _. discriminate.
Qed.

Lemma json_str_inj s : forall t r r', forallb scalar s = true -> forallb scalar t = true ->
  json_str s ++ r = json_str t ++ r' -> s = t /\ r = r'.
Proof.
  assert (G : forall s t r r', forallb scalar s = true -> forallb scalar t = true ->
    flat_map json_char s ++ 34 :: r = flat_map json_char t ++ 34 :: r' -> s = t /\ r = r').
  { clear. induction s as [|c s IH]; intros [|d t] r r' Hs Ht E; cbn [flat_map] in E.
    - injection E as ->. auto.
    - cbn [app] in E. rewrite <- app_assoc in E. symmetry in E. apply json_char_not_quote in E. destruct E.
    - cbn [app] in E. rewrite <- app_assoc in E. apply json_char_not_quote in E. destruct E.
    - cbn [forallb] in Hs, Ht. apply andb_prop in Hs as [Hs1 Hs2], Ht as [Ht1 Ht2]. rewrite <- !app_assoc in E.
      apply (f_equal unjson) in E. rewrite !unjson_char in E by assumption. injection E as -> E.
      destruct (IH t r r' Hs2 Ht2 E) as [-> ->]. auto. }
  intros t r r' Hs Ht E. unfold json_str in E. cbn [app] in E. injection E as E. rewrite <- !app_assoc in E. cbn [app] in E. exact (G s t r r' Hs Ht E).
Qed.

(** ** Values *)
Definition no_int_start (r : str) : Prop := forall c t, r = c :: t -> int_char c = false.

Lemma span_inj (p : N -> bool) a : forall b r r', forallb p a = true -> forallb p b = true ->
  (forall c t, r = c :: t -> p c = false) -> (forall c t, r' = c :: t -> p c = false) -> a ++ r = b ++ r' -> a = b /\ r = r'.
Proof.
  induction a as [|x a IH]; intros [|y b] r r' Ha Hb Hr Hr' E; cbn [app] in E.
  - auto.
  - cbn in Hb. apply andb_prop in Hb as [Hb _]. rewrite (Hr y _ E) in Hb. discriminate.
  - cbn in Ha. apply andb_prop in Ha as [Ha _]. symmetry in E. rewrite (Hr' x _ E) in Ha. discriminate.
  - injection E as -> E. cbn in Ha, Hb. apply andb_prop in Ha as [_ Ha], Hb as [_ Hb]. destruct (IH b r r' Ha Hb Hr Hr' E) as [-> ->]. auto.
Qed.

(** The first character of a value. *)
Definition kind (j : json) : N :=
  match j with JNull => 0 | JBool true => 1 | JBool false => 2 | JInt _ => 3 | JStr _ => 4 | JArr _ => 5 | JObj _ => 6 end.
Definition kind_of_char (c : N) : N :=
  if c =? 110 then 0 else if c =? 116 then 1 else if c =? 102 then 2 else if c =? 34 then 4 else if c =? 91 then 5 else if c =? 123 then 6 else 3.
Lemma dumps_first j : exists c r, json_dumps j = c :: r /\ kind_of_char c = kind j /\ c <> 93 /\ c <> 125.
Proof.
  destruct j as [|b|z|s|l|l]; cbn [json_dumps kind].
  - do 2 eexists. split; [reflexivity|]. split; [reflexivity|split; discriminate].
  - destruct b; (do 2 eexists; split; [reflexivity|]; split; [reflexivity|split; discriminate]).
  - destruct (z2s_first z) as (c&r&E&H). exists c, r. rewrite E. split; [reflexivity|].
    unfold int_char, ascii_digit in H. assert (G : c = 45 \/ 48 <= c <= 57).
    { apply orb_prop in H as [H|H]; [apply andb_prop in H as [H1 H2]; apply N.leb_le in H1, H2; lia|apply N.eqb_eq in H; lia]. }
    unfold kind_of_char.
    split; [|split; lia].
    destruct (N.eqb_spec c 110); [lia|]. destruct (N.eqb_spec c 116); [lia|]. destruct (N.eqb_spec c 102); [lia|].
    destruct (N.eqb_spec c 34); [lia|]. destruct (N.eqb_spec c 91); [lia|]. destruct (N.eqb_spec c 123); [lia|]. reflexivity.
  - do 2 eexists. split; [reflexivity|]. split; [reflexivity|split; discriminate].
  - do 2 eexists. split; [reflexivity|]. split; [reflexivity|split; discriminate].
  - do 2 eexists. split; [reflexivity|]. split; [reflexivity|split; discriminate].
Qed.

Lemma join_cons sep x y l : join sep (x :: y :: l) = x ++ sep ++ join sep (y :: l). Proof. reflexivity. Qed.

(** Lists of items separated by ", " and closed by [close]. *)
Lemma list_inj {A} (f : A -> str) (ok : A -> bool) (close : N) : int_char close = false -> close <> 44 ->
  (forall x, exists c r, f x = c :: r /\ c <> close) ->
  forall l l' r r',
  (forall x, In x l -> forall y r r', ok x = true -> ok y = true -> no_int_start r -> no_int_start r' -> f x ++ r = f y ++ r' -> x = y /\ r = r') ->
  forallb ok l = true -> forallb ok l' = true ->
  join (u ", ") (map f l) ++ close :: r = join (u ", ") (map f l') ++ close :: r' -> l = l' /\ r = r'.
Proof.
  intros Hc Hcomma Hf. induction l as [|x l IH]; intros l' r r' Hx Hl Hl' E.
  - destruct l' as [|y l']; [injection E as ->; auto|]. exfalso. destruct (Hf y) as (c&t&Ey&Hn).
    destruct l' as [|z l']; [cbn [map join] in E|cbn [map] in E; rewrite join_cons in E]; rewrite Ey in E; cbn [app map join] in E; injection E as E _; congruence.
  - destruct l' as [|y l'].
    + exfalso. destruct (Hf x) as (c&t&Ex&Hn).
      destruct l as [|z l]; [cbn [map join] in E|cbn [map] in E; rewrite join_cons in E]; rewrite Ex in E; cbn [app map join] in E; injection E as E _; congruence.
    + cbn [forallb] in Hl, Hl'. apply andb_prop in Hl as [Hl1 Hl2], Hl' as [Hl1' Hl2'].
      assert (Q : exists t t', f x ++ t = f y ++ t' /\ t = (match l with [] => close :: r | _ => u ", " ++ join (u ", ") (map f l) ++ close :: r end)
                 /\ t' = (match l' with [] => close :: r' | _ => u ", " ++ join (u ", ") (map f l') ++ close :: r' end)).
      { do 2 eexists. split; [|split; reflexivity].
        destruct l as [|x2 l], l' as [|y2 l']; cbn [map] in *; rewrite ?join_cons in E; cbn [join] in E; rewrite <- ?app_assoc in E; exact E. }
      destruct Q as (t&t'&Q&Et&Et').
      assert (N1 : no_int_start t). { rewrite Et. intros c w Ew. destruct l; injection Ew as <- _; [exact Hc|reflexivity]. }
      assert (N2 : no_int_start t'). { rewrite Et'. intros c w Ew. destruct l'; injection Ew as <- _; [exact Hc|reflexivity]. }
      destruct (Hx x (or_introl eq_refl) y t t' Hl1 Hl1' N1 N2 Q) as [-> Q2]. rewrite Et, Et' in Q2.
      destruct l as [|x2 l], l' as [|y2 l'].
      * injection Q2 as ->. auto.
      * cbn [u app] in Q2. injection Q2 as Q2 _. congruence.
      * cbn [u app] in Q2. injection Q2 as Q2 _. congruence.
      * cbn [u app] in Q2. injection Q2 as Q2. destruct (IH (y2 :: l') r r') as [-> ->]; auto.
        intros z Hz. apply Hx. right; exact Hz.
Qed.

Lemma dumps_inj_rest x : forall y r r', json_text_ok x = true -> json_text_ok y = true ->
  no_int_start r -> no_int_start r' -> json_dumps x ++ r = json_dumps y ++ r' -> x = y /\ r = r'.
Proof.
  induction x as [|b|z|s|l IH|l IH] using json_ind2; intros y r r' Hx Hy Hr Hr' E;
    (match type of E with json_dumps ?x0 ++ _ = _ =>
      assert (Hk : kind x0 = kind y);
      [ destruct (dumps_first x0) as (c1&r1&E1&K1&_); destruct (dumps_first y) as (c2&r2&E2&K2&_);
        rewrite E1, E2 in E; injection E as E _; congruence |] end);
    destruct y as [|b'|z'|s'|l'|l']; try (destruct b); try (destruct b'); try discriminate Hk; cbn [json_dumps] in E.
  - apply app_inv_head in E. auto.
  - apply app_inv_head in E. auto.
  - apply app_inv_head in E. auto.
  - destruct (span_inj int_char _ _ _ _ (z2s_chars z) (z2s_chars z') Hr Hr' E) as [E1 ->]. apply z2s_inj in E1. subst. auto.
  - destruct (json_str_inj s s' r r' Hx Hy E) as [-> ->]. auto.
  - cbn [u app] in E. injection E as E. rewrite <- !app_assoc in E. cbn [app] in E.
    destruct (list_inj json_dumps json_text_ok 93 eq_refl ltac:(discriminate)
      (fun x => let (c, H) := dumps_first x in let (r0, H) := H in ex_intro _ c (ex_intro _ r0 (conj (proj1 H) (proj1 (proj2 (proj2 H))))))
      l l' r r' IH Hx Hy E) as [-> ->]. auto.
  - cbn [u app] in E. injection E as E. rewrite <- !app_assoc in E. cbn [app] in E.
    destruct (list_inj (fun kv : str * json => json_str (fst kv) ++ u ": " ++ json_dumps (snd kv))
      (fun kv => forallb scalar (fst kv) && json_text_ok (snd kv)) 125 eq_refl ltac:(discriminate)) with (l := l) (l' := l') (r := r) (r' := r') as [-> ->]; auto.
    + intros [k x]. exists 34. eexists. split; [reflexivity|discriminate].
    + intros [k x] Hin [k' x'] t t' H1 H2 H3 H4 E'. cbn [fst snd] in *. apply andb_prop in H1 as [H1 H1'], H2 as [H2 H2'].
      rewrite <- !app_assoc in E'. destruct (json_str_inj k k' _ _ H1 H2 E') as [-> E2]. cbn [u app] in E2. injection E2 as E2.
      destruct (IH k' x Hin x' t t' H1' H2' H3 H4 E2) as [-> ->]. auto.
Qed.

Lemma json_dumps_inj x y : json_text_ok x = true -> json_text_ok y = true -> json_dumps x = json_dumps y -> x = y.
Proof.
  intros Hx Hy E. destruct (dumps_inj_rest x y [] [] Hx Hy); [intros ? ? H; discriminate H|intros ? ? H; discriminate H|rewrite E; reflexivity|assumption].
Qed.

(** The output is printable ASCII, hence one line. *)
Definition printable (c : N) : bool := (32 <=? c) && (c <=? 126).
Lemma lower_hex_printable n : n < 16 -> printable (lower_hex n) = true.
Proof. intro H. unfold lower_hex, printable. destruct (N.ltb_spec n 10); apply andb_true_intro; split; apply N.leb_le; lia. Qed.
Lemma hex4_printable n : forallb printable (hex4 n) = true.
Proof. unfold hex4. cbn [forallb]. rewrite !lower_hex_printable by (apply N.mod_upper_bound; discriminate). reflexivity. Qed.
Lemma json_char_printable c : forallb printable (json_char c) = true.
Proof.
  unfold json_char. repeat match goal with |- context[if ?b then _ else _] => destruct b eqn:? end; try reflexivity.
  - cbn [forallb]. unfold printable. rewrite Heqb6. reflexivity.
  - rewrite forallb_app, hex4_printable. reflexivity.
  - rewrite !forallb_app, !hex4_printable. reflexivity.
Qed.
Lemma forallb_join p sep l : forallb p sep = true -> (forall x, In x l -> forallb p x = true) -> forallb p (join sep l) = true.
Proof.
  intros Hs H. apply forallb_forall. intros c Hc. apply In_join in Hc as [Hc|(x&Hx&Hc)]; [rewrite forallb_forall in Hs; apply Hs, Hc|].
  specialize (H x Hx). rewrite forallb_forall in H. apply H, Hc.
Qed.
Lemma json_str_printable s : forallb printable (json_str s) = true.
Proof.
  assert (G : forallb printable (flat_map json_char s) = true).
  { induction s as [|c s IH]; [reflexivity|]. cbn [flat_map]. rewrite forallb_app, json_char_printable. exact IH. }
  unfold json_str. rewrite !forallb_app, G. reflexivity.
Qed.
Lemma int_char_printable c : int_char c = true -> printable c = true.
Proof.
  unfold int_char, ascii_digit, printable. intro H. apply andb_true_intro.
  apply orb_prop in H as [H|H]; [apply andb_prop in H as [H1 H2]; apply N.leb_le in H1, H2|apply N.eqb_eq in H]; split; apply N.leb_le; lia.
Qed.
Lemma json_dumps_printable j : forallb printable (json_dumps j) = true.
Proof.
  induction j as [|b|z|s|l IH|l IH] using json_ind2; cbn [json_dumps].
  - reflexivity.
  - destruct b; reflexivity.
  - apply forallb_forall. intros c Hc. pose proof (z2s_chars z) as H. rewrite forallb_forall in H. apply int_char_printable, H, Hc.
  - apply json_str_printable.
  - rewrite !forallb_app. cbn [forallb u andb]. rewrite forallb_join; [reflexivity|reflexivity|]. intros x Hx. apply in_map_iff in Hx as (y&<-&Hy). apply IH, Hy.
  - rewrite !forallb_app. cbn [forallb u andb]. rewrite forallb_join; [reflexivity|reflexivity|]. intros x Hx. apply in_map_iff in Hx as ([k y]&<-&Hy).
    cbn [fst snd]. rewrite !forallb_app, json_str_printable, (IH k y Hy). reflexivity.
Qed.
