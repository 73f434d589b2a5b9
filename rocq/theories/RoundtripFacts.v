(** * RoundtripFacts: writing ABIF and reading it again *)

From Coq Require Import Lia Permutation Sorted.
From Verif Require Import PyBase PyFacts Jabmod Regex RegexFacts WordTable ScoreModel ScoreFacts Spec ParserModel ParserSpec ParserFacts ParserPrefs ParserRender.
From Verif Require Import PairwiseModel PairwiseFacts PropsPairwise ParserFile ParserText ParserLines PropsParser TextFacts UrlText UrlFacts JsonText JsonFacts WriterModel ConsolidateFacts.
Local Open Scope Z_scope.

(** ** Specification: what can be written *)
(** A token written as it is: letters, digits and _ . - ~ *)
Definition simple (t : str) : bool := forallb always_safe t.
(** A token written in square brackets: no white space at its ends, none of # [ ] > = , or a double quote,
    no line boundary. *)
Definition boxable (t : str) : Prop := plain_name t /\ has 34 t = false /\ forallb scalar t = true.
Definition writable_token (t : str) : Prop := t <> [] /\ (simple t = true \/ boxable t).
(** A rating whose text is a decimal numeral. *)
Definition writable_rating (r : ratingval) : Prop :=
  match r with RInt z => 0 <= z | RStr s => numeral s end.
Definition rating_num (r : ratingval) : Z := match rating_int r with Ok z => z | Err _ => 0 end.
(** A voteline: every candidate has a rank, and when every candidate also has a rating, a better rank means
    a higher rating and conversely. *)
Definition writable_line (v : voteline) : Prop :=
  0 <= v_qty v /\ NoDup (map fst (v_prefs v)) /\
  (forall c p, In (c, p) (v_prefs v) -> writable_token c /\ p_rank p <> None /\ forall r, p_rating p = Some r -> writable_rating r) /\
  ((forall c p, In (c, p) (v_prefs v) -> p_rating p <> None) ->
     forall c c' p p' k k', In (c, p) (v_prefs v) -> In (c', p') (v_prefs v) -> p_rank p = Some k -> p_rank p' = Some k' ->
       (k < k' <-> rating_on v c' < rating_on v c)).
Definition writable (m : jabmod) : Prop :=
  j_votelines m <> [] /\ (forall v, In v (j_votelines m) -> writable_line v) /\
  NoDup (cands m) /\
  (forall t n, In (t, n) (j_candidates m) -> (simple t = true \/ boxable t) /\
     (forall c, In c n -> is_linebreak c = false /\ c <> 35%N /\ c <> 93%N)) /\
  (forall k j, In (k, j) (j_metadata m) -> one_line k).

(** The same ballots: quantity, candidates, order, ratings. *)
Definition same_votes (v w : voteline) : Prop :=
  v_qty w = v_qty v /\ (forall c, lists w c = lists v c) /\ (forall a b, prefers w a b = prefers v a b).

(** ** Dense ranks along a sorted list *)
Section Dense.
Context {A : Type} (key : A -> Z).
Fixpoint dr (k : Z) (x : A) (l : list A) : list (A * Z) :=
  (x, k) :: match l with [] => [] | y :: l' => dr (if key x <? key y then k + 1 else k) y l' end.
Lemma dr_fst l : forall k x, map fst (dr k x l) = x :: l.
Proof. induction l as [|y l IH]; intros k x; cbn [dr map fst]; [reflexivity|]. f_equal. apply IH. Qed.
Lemma dr_low l : forall k x b z, StronglySorted (fun a b => key a <= key b) (x :: l) -> In (b, z) (dr k x l) ->
  key x <= key b /\ k <= z /\ (k < z <-> key x < key b).
Proof.
  induction l as [|y l IH]; intros k x b z S Hin; cbn [dr In] in Hin.
  - destruct Hin as [E|[]]. injection E as <- <-. lia.
  - destruct Hin as [E|Hin]; [injection E as <- <-; lia|]. inversion S as [|? ? S' F]; subst. inversion F as [|? ? Hxy _]; subst.
    destruct (IH _ _ _ _ S' Hin) as (H1&H2&H3). destruct (Z.ltb_spec (key x) (key y)); lia.
Qed.
Lemma dr_order l : forall k x, StronglySorted (fun a b => key a <= key b) (x :: l) ->
  forall a za b zb, In (a, za) (dr k x l) -> In (b, zb) (dr k x l) -> (za < zb <-> key a < key b).
Proof.
  induction l as [|y l IH]; intros k x S a za b zb Ha Hb.
  - cbn in Ha, Hb. destruct Ha as [E|[]], Hb as [E'|[]]. injection E as <- <-. injection E' as <- <-. lia.
  - pose proof (dr_low _ _ _ _ _ S Ha) as La. pose proof (dr_low _ _ _ _ _ S Hb) as Lb.
    inversion S as [|? ? S' F]; subst. cbn [dr In] in Ha, Hb. destruct Ha as [E|Ha], Hb as [E'|Hb].
    + injection E as <- <-. injection E' as <- <-. lia.
    + injection E as <- <-. lia.
    + injection E' as <- <-. lia.
    + exact (IH _ _ S' a za b zb Ha Hb).
Qed.
Lemma dr_bound l : forall k x b z, In (b, z) (dr k x l) -> z <= k + Z.of_nat (length l).
Proof.
  induction l as [|y l IH]; intros k x b z Hin; cbn [dr In length] in Hin |- *.
  - destruct Hin as [E|[]]. injection E as <- <-. lia.
  - destruct Hin as [E|Hin]; [injection E as <- <-; lia|]. apply IH in Hin. destruct (key x <? key y); lia.
Qed.
End Dense.

(** ** Tokens *)
Lemma safe_char_cases c : always_safe c = true -> (c < 128)%N /\ plain_char c = true /\ is_space c = false /\ N.eqb 34 c = false /\ N.eqb 47 c = false /\
  scalar c = true /\ existsb (N.eqb c) [58; 34; 93]%N = false /\ N.eqb 91 c = false /\ N.eqb c 35 = false.
Proof.
  intro H. assert (B : (c < 256)%N).
  { unfold always_safe, inr in H. rewrite !orb_true_iff, !andb_true_iff, !N.leb_le, !N.eqb_eq in H. lia. }
  pose (P := fun c => negb (always_safe c) || ((c <? 128)%N && plain_char c && negb (is_space c) && negb (N.eqb 34 c) && negb (N.eqb 47 c) &&
     scalar c && negb (existsb (N.eqb c) [58; 34; 93]%N) && negb (N.eqb 91 c) && negb (N.eqb c 35))).
  assert (HP : P c = true) by (apply all_bytes; [vm_compute; reflexivity|exact B]).
  unfold P in HP. rewrite H in HP. cbn [negb orb] in HP. repeat (apply andb_prop in HP as [HP ?]).
  repeat match goal with X : negb _ = true |- _ => apply negb_true_iff in X end. apply N.ltb_lt in HP. repeat split; assumption.
Qed.

Lemma simple_all t : simple t = true -> forall c, In c t -> always_safe c = true.
Proof. intros H. apply forallb_forall. exact H. Qed.
Lemma simple_plain t : simple t = true -> t <> [] -> plain_name t /\ has 34 t = false /\ has 47 t = false.
Proof.
  intros H Hn. pose proof (simple_all t H) as Ha. split; [|split].
  - split; [exact Hn|]. split.
    + apply forallb_forall. intros c Hc. apply (safe_char_cases c (Ha c Hc)).
    + apply strip_nospace. intros c Hc. apply (safe_char_cases c (Ha c Hc)).
  - unfold has. apply existsb_false. intros c Hc. apply (safe_char_cases c (Ha c Hc)).
  - unfold has. apply existsb_false. intros c Hc. apply (safe_char_cases c (Ha c Hc)).
Qed.
Lemma quote_simple t : simple t = true -> abif_token_quote t = Ok t.
Proof. intro H. unfold abif_token_quote. rewrite (safe_fixed t H). cbn [bind]. rewrite str_eqb_refl. reflexivity. Qed.
Lemma quote_boxed t : simple t = false -> forallb scalar t = true -> abif_token_quote t = Ok ([91%N] ++ t ++ [93%N]).
Proof.
  intros H Hs. unfold abif_token_quote. destruct (quote_plus_ok t Hs) as (q&E&_). rewrite E. cbn [bind].
  destruct (str_eqb_spec q t) as [->|n]; [|reflexivity]. apply fixed_safe in E. unfold simple in H. congruence.
Qed.

(** ** One candidate *)
Definition as_written (name : str) (p : pref) : written :=
  let r := option_map rating_str (p_rating p) in
  if simple name then Bare name r else Bracketed name r.
Definition as_item (np : str * pref) : item := ([], as_written (fst np) (snd np), []).

Lemma as_item_name np : item_name (as_item np) = fst np.
Proof. unfold item_name, item_written, as_item, as_written. cbn [fst snd]. destruct (simple (fst np)); reflexivity. Qed.

Lemma rating_numeral r : writable_rating r -> numeral (rating_str r).
Proof. destruct r as [z|s]; cbn; [apply z2s_numeral|auto]. Qed.

Lemma as_item_ok c p : writable_token c -> (forall r, p_rating p = Some r -> writable_rating r) -> item_ok (as_item (c, p)).
Proof.
  intros [Hn Hc] Hr. unfold item_ok, as_item. cbn [fst snd]. split; [exact blank_0|]. split; [|exact blank_0].
  assert (Hd : forall d, option_map rating_str (p_rating p) = Some d -> numeral d).
  { intros d E. destruct (p_rating p) as [r|]; [|discriminate]. apply some_inj in E. subst d. apply rating_numeral, Hr. reflexivity. }
  unfold as_written. destruct (simple c) eqn:Es; cbn [well_written].
  - destruct (simple_plain c Es Hn) as (H1&H2&H3). auto.
  - destruct Hc as [Hc|(H1&H2&_)]; [congruence|]. auto.
Qed.

Lemma quote_item c p : writable_token c ->
  exists q, abif_token_quote c = Ok q /\ q ++ rating_suffix p = show_item (as_item (c, p)).
Proof.
  intros [Hn Hc]. unfold show_item, as_item, as_written. cbn [fst snd]. destruct (simple c) eqn:Es.
  - exists c. split; [apply quote_simple, Es|]. cbn [show app]. rewrite app_nil_r. unfold rating_suffix. destruct (p_rating p); reflexivity.
  - destruct Hc as [Hc|(H1&H2&H3)]; [congruence|]. exists ([91%N] ++ c ++ [93%N]). split; [apply quote_boxed; assumption|].
    cbn [show app]. rewrite app_nil_r. rewrite <- app_assoc. unfold rating_suffix. destruct (p_rating p); reflexivity.
Qed.

(** ** Preference texts *)
(** The items after the first, each with its delimiter: greater-than where the key grows, else equals. *)
Fixpoint rest_items (key : str * pref -> Z) (x : str * pref) (l : list (str * pref)) : list (N * item) :=
  match l with
  | [] => []
  | y :: l' => (if key x <? key y then 62%N else 61%N, as_item y) :: rest_items key y l'
  end.

Lemma rest_names key l : forall x, map item_name (map snd (rest_items key x l)) = map fst l.
Proof. induction l as [|y l IH]; intro x; [reflexivity|]. cbn [rest_items map snd]. rewrite as_item_name, IH. reflexivity. Qed.

Lemma rest_ranks key l : forall k x, ranks_from k (as_item x) (rest_items key x l) = map (fun az => (fst (fst az), snd az)) (dr key k x l).
Proof.
  induction l as [|y l IH]; intros k x; cbn [rest_items ranks_from dr map fst snd]; rewrite as_item_name; [reflexivity|]. f_equal.
  destruct (key x <? key y); apply IH.
Qed.
Lemma rest_delims key l : forall x d j, In (d, j) (rest_items key x l) -> (d = 62%N \/ d = 61%N) /\ exists np, In np l /\ j = as_item np.
Proof.
  induction l as [|y l IH]; intros x d j Hin; [destruct Hin|]. cbn [rest_items In] in Hin. destruct Hin as [E|Hin].
  - injection E as <- <-. split; [destruct (key x <? key y); auto|]. exists y. split; [left; reflexivity|reflexivity].
  - destruct (IH _ _ _ Hin) as (H1&np&H2&H3). split; [exact H1|]. exists np. split; [right; exact H2|exact H3].
Qed.

Definition rank_key (np : str * pref) : Z := match p_rank (snd np) with Some r => r | None => 0 end.
Definition rate_key (np : str * pref) : Z := match p_rating (snd np) with Some r => - rating_num r | None => 0 end.

Lemma ranked_step c p c2 p2 l : prefstr_from_ranked ((c, p) :: (c2, p2) :: l) =
  bind (abif_token_quote c) (fun q => bind (of_option KeyError (p_rank p)) (fun r1 => bind (of_option KeyError (p_rank p2)) (fun r2 =>
    if r1 <? r2 then bind (prefstr_from_ranked ((c2, p2) :: l)) (fun t => Ok (q ++ rating_suffix p ++ 62%N :: t))
    else if r1 =? r2 then bind (prefstr_from_ranked ((c2, p2) :: l)) (fun t => Ok (q ++ rating_suffix p ++ 61%N :: t))
    else Err ValueError))).
Proof. reflexivity. Qed.
Lemma ranked_text l : forall x, (forall c p, In (c, p) (x :: l) -> writable_token c /\ p_rank p <> None) ->
  StronglySorted (fun a b => rank_key a <= rank_key b) (x :: l) ->
  prefstr_from_ranked (x :: l) = Ok (show_prefs (as_item x) (rest_items rank_key x l)).
Proof.
  induction l as [|y l IH]; intros [c p] H S.
  - cbn [prefstr_from_ranked rest_items show_prefs]. destruct (quote_item c p) as (q&E&E'); [apply (H c p); left; reflexivity|].
    rewrite E. cbn [bind]. rewrite E'. reflexivity.
  - cbn [rest_items show_prefs]. destruct (quote_item c p) as (q&E&E'); [apply (H c p); left; reflexivity|]. destruct y as [c2 p2].
    rewrite ranked_step, E. cbn [bind].
    assert (R1 : p_rank p <> None) by (apply (H c p); left; reflexivity). assert (R2 : p_rank p2 <> None) by (apply (H c2 p2); right; left; reflexivity).
    inversion S as [|? ? S' F]; subst. inversion F as [|? ? Hxy _]; subst. unfold rank_key at 1 2 in Hxy. cbn [snd] in Hxy.
    rewrite (IH (c2, p2)) by (try exact S'; intros c' p' Hin; apply H; right; exact Hin).
    destruct (p_rank p) as [r1|] eqn:E1; [|congruence]. destruct (p_rank p2) as [r2|] eqn:E2; [|congruence]. cbn [of_option bind].
    assert (K1 : rank_key (c, p) = r1) by (unfold rank_key; cbn [snd]; rewrite E1; reflexivity).
    assert (K2 : rank_key (c2, p2) = r2) by (unfold rank_key; cbn [snd]; rewrite E2; reflexivity). rewrite K1, K2.
    rewrite <- E'. destruct (Z.ltb_spec r1 r2) as [L|L]; cbn [bind].
    + rewrite <- app_assoc. reflexivity.
    + replace (r1 =? r2) with true by (symmetry; apply Z.eqb_eq; lia). cbn [bind]. rewrite <- app_assoc. reflexivity.
Qed.

Lemma rated_int p r : p_rating p = Some r -> writable_rating r -> rating_int r = Ok (rating_num r).
Proof.
  intros _ H. unfold rating_num. destruct r as [z|s]; [reflexivity|]. cbn in H |- *. destruct (py_int_numeral s H) as (n&_&->). reflexivity.
Qed.

Definition rated_ok (np : str * pref) : Prop := writable_token (fst np) /\ exists r, p_rating (snd np) = Some r /\ writable_rating r.

Lemma tier_texts t0 : forall x, Forall rated_ok (t0 ++ [x]) ->
  tier_text (t0 ++ [x]) = Ok (flat_map (fun y => show_item (as_item y) ++ [61%N]) t0 ++ show_item (as_item x)).
Proof.
  intros x H. unfold tier_text.
  assert (E : mapM (fun np => bind (abif_token_quote (fst np)) (fun q => Ok (q ++ rating_suffix (snd np)))) (t0 ++ [x]) =
              Ok (map (fun y => show_item (as_item y)) (t0 ++ [x]))).
  { induction (t0 ++ [x]) as [|[c p] l IH]; [reflexivity|]. inversion H as [|? ? [Hc _] H']; subst. cbn [mapM map fst snd].
    destruct (quote_item c p Hc) as (q&Eq&E'). rewrite Eq. cbn [bind]. rewrite (IH H'). cbn [bind]. rewrite E'. reflexivity. }
  rewrite E. cbn [bind]. f_equal. clear. induction t0 as [|y t0 IH]; [reflexivity|].
  cbn [app map flat_map]. destruct (t0 ++ [x]) as [|z l] eqn:El; [destruct t0; discriminate|]. cbn [map] in IH |- *.
  cbn [join]. cbn [join] in IH. rewrite IH. rewrite <- !app_assoc. reflexivity.
Qed.

Lemma rating_tiers_cons cur tier name p rest : rating_tiers cur tier ((name, p) :: rest) =
  bind (match p_rating p with Some r => rating_int r | None => Err KeyError end) (fun rating =>
    if rating =? cur then rating_tiers cur (tier ++ [(name, p)]) rest
    else bind (rating_tiers rating [(name, p)] rest) (fun ts => Ok (match tier with [] => ts | _ => tier :: ts end))).
Proof. reflexivity. Qed.
Lemma rating_tiers_ne l : forall cur tier ts, tier <> [] -> rating_tiers cur tier l = Ok ts -> ts <> [].
Proof.
  induction l as [|[c p] l IH]; intros cur tier ts Hn H.
  - cbn in H. apply ok_inj in H. subst ts. destruct tier; [congruence|discriminate].
  - rewrite rating_tiers_cons in H. apply bind_ok in H as (r&_&H). destruct (r =? cur).
    + refine (IH _ _ _ _ H). destruct tier; discriminate.
    + apply bind_ok in H as (ts'&_&H). apply ok_inj in H. subst ts. destruct tier; [congruence|discriminate].
Qed.

Definition tiers_text (tiers : list (list (str * pref))) : result str :=
  bind (mapM tier_text tiers) (fun ts => Ok (join [62%N] ts)).

Lemma ratings_text_from l : forall t0 x, Forall rated_ok (t0 ++ x :: l) ->
  StronglySorted (fun a b => rate_key a <= rate_key b) (x :: l) ->
  bind (rating_tiers (- rate_key x) (t0 ++ [x]) l) tiers_text =
  Ok (flat_map (fun y => show_item (as_item y) ++ [61%N]) t0 ++ show_prefs (as_item x) (rest_items rate_key x l)).
Proof.
  induction l as [|y l IH]; intros t0 x H S.
  - cbn [rating_tiers rest_items show_prefs bind].
    replace (match t0 ++ [x] with [] => [] | _ => [t0 ++ [x]] end) with [t0 ++ [x]] by (destruct t0; reflexivity).
    unfold tiers_text. cbn [mapM]. rewrite (tier_texts t0 x H). cbn [bind join]. reflexivity.
  - destruct y as [c p]. rewrite rating_tiers_cons.
    assert (Hy : rated_ok (c, p)) by (rewrite Forall_forall in H; apply H, in_or_app; right; right; left; reflexivity).
    pose proof Hy as (Hc&r&Er&Hr). cbn [fst snd] in Hc, Er. rewrite Er, (rated_int p r Er Hr). cbn [bind].
    assert (Ek : rate_key (c, p) = - rating_num r) by (unfold rate_key; cbn [snd]; rewrite Er; reflexivity).
    inversion S as [|? ? S' F]; subst. inversion F as [|? ? Hxy _]; subst. rewrite Ek in Hxy.
    cbn [rest_items show_prefs]. rewrite Ek. destruct (Z.eqb_spec (rating_num r) (- rate_key x)) as [E|E].
    + replace (rate_key x <? - rating_num r) with false by (symmetry; apply Z.ltb_ge; lia).
      replace (- rate_key x) with (- rate_key (c, p)) by lia. rewrite (IH (t0 ++ [x]) (c, p)); [|rewrite <- app_assoc; exact H|exact S'].
      rewrite flat_map_app. cbn [flat_map]. rewrite app_nil_r, <- !app_assoc. reflexivity.
    + replace (rate_key x <? - rating_num r) with true by (symmetry; apply Z.ltb_lt; lia).
      assert (H2 : Forall rated_ok ([] ++ (c, p) :: l)).
      { rewrite Forall_forall in H |- *. intros z Hz. apply H, in_or_app. right; right; exact Hz. }
      specialize (IH [] (c, p) H2 S'). cbn [app] in IH. replace (- rate_key (c, p)) with (rating_num r) in IH by lia.
      destruct (rating_tiers (rating_num r) [(c, p)] l) as [ts|] eqn:Et; [|discriminate]. cbn [bind] in IH |- *.
      replace (match t0 ++ [x] with [] => ts | _ => (t0 ++ [x]) :: ts end) with ((t0 ++ [x]) :: ts) by (destruct t0; reflexivity).
      unfold tiers_text in IH |- *. cbn [mapM]. rewrite (tier_texts t0 x).
      2:{ rewrite Forall_forall in H |- *. intros z Hz. apply H. apply in_app_or in Hz as [Hz|Hz]; apply in_or_app; [left; exact Hz|right; destruct Hz as [->|[]]; left; reflexivity]. }
      cbn [bind]. destruct (mapM tier_text ts) as [us|] eqn:Em; [|discriminate]. cbn [bind] in IH |- *. apply ok_inj in IH. cbn [flat_map app] in IH.
      assert (Hus : us <> []).
      { intros ->. assert (Hne : ts <> []) by (refine (rating_tiers_ne _ _ _ _ _ Et); discriminate). destruct ts as [|t ts]; [congruence|].
        cbn [mapM] in Em. apply bind_ok in Em as (y0&_&Em). apply bind_ok in Em as (y1&_&Em). discriminate. }
      destruct us as [|u us]; [congruence|]. f_equal.
      change (join [62%N] ((flat_map (fun y => show_item (as_item y) ++ [61%N]) t0 ++ show_item (as_item x)) :: u :: us))
        with ((flat_map (fun y => show_item (as_item y) ++ [61%N]) t0 ++ show_item (as_item x)) ++ [62%N] ++ join [62%N] (u :: us)).
      rewrite IH. rewrite <- !app_assoc. reflexivity.
Qed.

Lemma ratings_text x l : Forall rated_ok (x :: l) -> StronglySorted (fun a b => rate_key a <= rate_key b) (x :: l) ->
  prefstr_from_ratings (x :: l) = Ok (show_prefs (as_item x) (rest_items rate_key x l)).
Proof.
  intros H S. pose proof (ratings_text_from l [] x H S) as E. cbn [app flat_map] in E. refine (eq_trans _ E). clear E. unfold prefstr_from_ratings, tiers_text.
  destruct x as [c p]. rewrite rating_tiers_cons. inversion H as [|? ? Hx _]; subst. destruct Hx as (Hc&r&Er&Hr). cbn [fst snd] in *.
  rewrite Er, (rated_int p r Er Hr). cbn [bind app].
  assert (Ek : - rate_key (c, p) = rating_num r) by (unfold rate_key; cbn [snd]; rewrite Er; lia). rewrite Ek.
  destruct (Z.eqb_spec (rating_num r) 0) as [E0|E0]; [rewrite E0; reflexivity|].
  destruct (rating_tiers (rating_num r) [(c, p)] l); reflexivity.
Qed.

(** ** A voteline written and read *)
Lemma rated_leb_total x y : rated_leb x y = true \/ rated_leb y x = true.
Proof.
  unfold rated_leb. destruct (Z.eqb_spec (fst x) (fst y)) as [E|n].
  - rewrite E, Z.eqb_refl. apply str_leb_total.
  - destruct (Z.eqb_spec (fst y) (fst x)); [lia|]. rewrite !Z.ltb_lt. lia.
Qed.
Lemma rated_leb_trans x y z : rated_leb x y = true -> rated_leb y z = true -> rated_leb x z = true.
Proof.
  unfold rated_leb. intros H1 H2. destruct (Z.eqb_spec (fst x) (fst y)) as [E|n]; destruct (Z.eqb_spec (fst y) (fst z)) as [E'|n'].
  - replace (fst x =? fst z) with true by (symmetry; apply Z.eqb_eq; lia). exact (str_leb_trans _ _ _ H1 H2).
  - replace (fst x =? fst z) with false by (symmetry; apply Z.eqb_neq; lia). rewrite E. exact H2.
  - replace (fst x =? fst z) with false by (symmetry; apply Z.eqb_neq; lia). rewrite <- E'. exact H1.
  - apply Z.ltb_lt in H1, H2. replace (fst x =? fst z) with false by (symmetry; apply Z.eqb_neq; lia). apply Z.ltb_lt; lia.
Qed.

Lemma SS_map {A B} (f : A -> B) (R : B -> B -> Prop) l : StronglySorted (fun x y => R (f x) (f y)) l -> StronglySorted R (map f l).
Proof.
  induction 1 as [|x l S IH F]; cbn [map]; constructor; [exact IH|]. apply Forall_forall. intros y Hy. apply in_map_iff in Hy as (z&<-&Hz).
  rewrite Forall_forall in F. apply F, Hz.
Qed.
Lemma SS_weaken {A} (R R' : A -> A -> Prop) l : (forall x y, In x l -> In y l -> R x y -> R' x y) -> StronglySorted R l -> StronglySorted R' l.
Proof.
  intros H S. induction S as [|x l S IH F]; constructor.
  - apply IH. intros a b Ha Hb. apply H; right; assumption.
  - rewrite Forall_forall in F |- *. intros y Hy. apply H; [left; reflexivity|right; exact Hy|apply F, Hy].
Qed.

(** What the writer writes for a writable line: its candidates, sorted by one of the two keys. *)
Lemma prefs_text_shape v : writable_line v ->
  (v_prefs v = [] /\ prefs_text (v_prefs v) = Ok []) \/
  exists key x l, (key = rank_key \/ (key = rate_key /\ forall c p, In (c, p) (v_prefs v) -> p_rating p <> None)) /\
    Permutation (x :: l) (v_prefs v) /\ StronglySorted (fun a b => key a <= key b) (x :: l) /\
    prefs_text (v_prefs v) = Ok (show_prefs (as_item x) (rest_items key x l)).
Proof.
  intros (_&_&Hw&_). destruct (v_prefs v) as [|y0 l0] eqn:Ep; [left; split; reflexivity|]. rewrite <- Ep in *. right.
  assert (Hne : v_prefs v <> []) by (rewrite Ep; discriminate). clear Ep y0 l0.
  set (P := v_prefs v) in *. clearbody P.
  unfold prefs_text.
  destruct (existsb (fun kv => match p_rating (snd kv) with None => true | _ => false end) P) eqn:Ex.
  - assert (E : mapM (fun kv : str * pref => bind (rating_key (snd kv)) (fun r => Ok (r, kv))) P = Err TypeError).
    { clear Hne. induction P as [|[c p] P IH]; [discriminate|]. cbn [existsb snd] in Ex. cbn [mapM snd].
      unfold rating_key at 1. destruct (p_rating p) as [r|] eqn:Er; [|reflexivity].
      destruct (Hw c p (or_introl eq_refl)) as (_&_&Hr). rewrite (rated_int p r Er (Hr r Er)). cbn [bind]. cbn [orb] in Ex.
      rewrite IH; [reflexivity|intros c' p' Hin; apply Hw; right; exact Hin|exact Ex]. }
    rewrite E.
    assert (Es : sort_by_rank P = Ok (sort_asc rank_key P)).
    { unfold sort_by_rank.
      assert (Em : mapM (fun kv : str * pref => bind (of_option KeyError (p_rank (snd kv))) (fun r => Ok (r, kv))) P = Ok (map (fun kv => (rank_key kv, kv)) P)).
      { clear - Hw. induction P as [|[c p] P IH]; [reflexivity|]. cbn [mapM map snd]. unfold rank_key at 1. cbn [snd].
        destruct (Hw c p (or_introl eq_refl)) as (_&Hr&_). destruct (p_rank p) as [r|]; [|congruence]. cbn [of_option bind].
        rewrite IH; [reflexivity|intros c' p' Hin; apply Hw; right; exact Hin]. }
      rewrite Em. cbn [bind]. f_equal. unfold sort_asc.
      rewrite <- (sort_by_map (fun kv => (rank_key kv, kv)) (fun x y => rank_key x <=? rank_key y)) by reflexivity.
      rewrite map_map. cbn [snd]. apply map_id. }
    rewrite Es. cbn [bind].
    pose proof (sort_asc_perm rank_key P) as HP. pose proof (sort_asc_sorted rank_key P) as HS.
    destruct (sort_asc rank_key P) as [|x l]; [apply Permutation_nil in HP; congruence|].
    exists rank_key, x, l. split; [left; reflexivity|]. split; [exact HP|]. split; [exact HS|]. apply ranked_text; [|exact HS].
    intros c p Hin. destruct (Hw c p (Permutation_in _ HP Hin)) as (H1&H2&_). auto.
  - assert (Hr : forall c p, In (c, p) P -> exists r, p_rating p = Some r /\ writable_rating r).
    { intros c p Hin. destruct (p_rating p) as [r|] eqn:Er.
      - exists r. split; [reflexivity|]. apply (Hw c p Hin), Er.
      - exfalso. rewrite <- not_true_iff_false in Ex. apply Ex, existsb_exists. exists (c, p). split; [exact Hin|]. cbn [snd]. rewrite Er. reflexivity. }
    assert (E : mapM (fun kv : str * pref => bind (rating_key (snd kv)) (fun r => Ok (r, kv))) P = Ok (map (fun kv => (- rate_key kv, kv)) P)).
    { clear - Hr. induction P as [|[c p] P IH]; [reflexivity|]. cbn [mapM map snd].
      destruct (Hr c p (or_introl eq_refl)) as (r&Er&Hw). unfold rating_key at 1. rewrite Er, (rated_int p r Er Hw). cbn [bind].
      rewrite IH by (intros c' p' Hin; apply (Hr c'); right; exact Hin). cbn [bind]. unfold rate_key at 2. cbn [snd]. rewrite Er. rewrite Z.opp_involutive. reflexivity. }
    rewrite E. set (Q := map (fun kv => (- rate_key kv, kv)) P).
    assert (HP : Permutation (map snd (sort_by rated_leb Q)) P).
    { transitivity (map snd Q); [apply Permutation_map, sort_by_perm|]. unfold Q. rewrite map_map. cbn [snd]. rewrite map_id. reflexivity. }
    assert (HS : StronglySorted (fun a b => rate_key a <= rate_key b) (map snd (sort_by rated_leb Q))).
    { apply SS_map. refine (SS_weaken _ _ _ _ (sort_by_sorted rated_leb rated_leb_total rated_leb_trans Q)).
      intros a b Ha Hb H. apply sort_by_In in Ha, Hb. unfold Q in Ha, Hb. apply in_map_iff in Ha as (a'&<-&_). apply in_map_iff in Hb as (b'&<-&_).
      unfold rated_leb in H. cbn [fst snd] in H |- *. destruct (Z.eqb_spec (- rate_key a') (- rate_key b')) as [e|e]; [lia|]. apply Z.ltb_lt in H. lia. }
    destruct (map snd (sort_by rated_leb Q)) as [|x l]; [apply Permutation_nil in HP; congruence|].
    exists rate_key, x, l. split; [right; split; [reflexivity|]|].
    { intros c p Hin. destruct (Hr c p Hin) as (r&->&_). discriminate. }
    split; [exact HP|]. split; [exact HS|]. apply ratings_text; [|exact HS].
    apply Forall_forall. intros [c p] Hin. apply (Permutation_in _ HP) in Hin. split; [apply (Hw c p Hin)|]. apply (Hr c p Hin).
Qed.

Lemma stored_as_written c p : (forall r, p_rating p = Some r -> writable_rating r) ->
  match stored_rating (as_written c p) with Some r => match rating_int r with Ok z => z | Err _ => 0 end | None => 0 end =
  match p_rating p with Some r => match rating_int r with Ok z => z | Err _ => 0 end | None => 0 end.
Proof.
  intro H. unfold as_written. destruct (p_rating p) as [r|]; [|destruct (simple c); reflexivity]. specialize (H r eq_refl).
  assert (G : match py_int (rating_str r) with Ok z => z | Err _ => 0 end = match rating_int r with Ok z => z | Err _ => 0 end /\ exists z, py_int (rating_str r) = Ok z).
  { destruct r as [z|s]; cbn in H |- *.
    - rewrite py_int_z2s. split; [reflexivity|eauto].
    - split; [reflexivity|]. destruct (py_int_numeral s H) as (n&_&->). eauto. }
  destruct G as (G&z&Ez). rewrite <- G, Ez.
  assert (E : stored_rating (if simple c then Bare c (option_map rating_str (Some r)) else Bracketed c (option_map rating_str (Some r))) = if z =? 0 then None else Some (RInt z)).
  { destruct (simple c); cbn [stored_rating option_map]; rewrite Ez; reflexivity. }
  rewrite E. destruct (Z.eqb_spec z 0) as [->|]; reflexivity.
Qed.

Lemma stored_readable c p : (forall r, p_rating p = Some r -> writable_rating r) ->
  match stored_rating (as_written c p) with Some r => readable r | None => true end = true.
Proof.
  intro H. unfold as_written. destruct (p_rating p) as [r|]; [|destruct (simple c); reflexivity]. specialize (H r eq_refl).
  assert (G : exists z, py_int (rating_str r) = Ok z).
  { destruct r as [z|s]; cbn in H |- *.
    - rewrite py_int_z2s. eauto.
    - destruct (py_int_numeral s H) as (n&_&->). eauto. }
  destruct G as (z&Ez).
  destruct (simple c); cbn [stored_rating option_map]; rewrite Ez; destruct (z =? 0); reflexivity.
Qed.

(** The voteline read back. *)
Lemma line_roundtrip v : writable_line v ->
  exists t prefs, prefs_text (v_prefs v) = Ok t /\ safe t /\ parse_prefstr t = Ok (prefs, dkeys prefs) /\
    Permutation (dkeys prefs) (dkeys (v_prefs v)) /\
    forall w, v_prefs w = prefs ->
      (forall a b, prefers w a b = prefers v a b) /\ (forall c, lists w c = lists v c) /\ (forall c, rating_on w c = rating_on v c) /\
      (forall c, lists w c = true -> exists r, rank_on w c = Some r /\ 1 <= r <= Z.of_nat (length prefs)) /\
      line_rated w = true.
Proof.
  intro Hv. pose proof Hv as (_&Hnd&Hw&Hrk). destruct (prefs_text_shape v Hv) as [[Ep Et]|(key&x&l&Hkey&HP&HS&Et)].
  - exists [], []. split; [exact Et|]. split; [intros c []|]. split; [vm_compute; reflexivity|]. rewrite Ep. split; [reflexivity|].
    intros w Ew. unfold prefers, rank_on, lists, rating_on, line_rated. rewrite Ew, Ep. cbn [dget]. repeat split; discriminate.
  - set (i := as_item x) in *. set (r := rest_items key x l) in *.
    assert (Hok : forall np, In np (x :: l) -> item_ok (as_item np)).
    { intros [c p] Hin. destruct (Hw c p (Permutation_in _ HP Hin)) as (H1&_&H3). apply as_item_ok; assumption. }
    assert (Hi : item_ok i) by (apply Hok; left; reflexivity).
    assert (Hr : forall d j, In (d, j) r -> delimiter d /\ item_ok j).
    { intros d j Hin. destruct (rest_delims _ _ _ _ _ Hin) as (Hd&np&Hnp&->). split; [unfold delimiter; destruct Hd; auto|]. apply Hok. right; exact Hnp. }
    assert (Hnames : map item_name (items i r) = map fst (x :: l)).
    { unfold items. cbn [map]. unfold i at 1, r. rewrite as_item_name, rest_names. reflexivity. }
    assert (Hnd' : NoDup (map fst (x :: l))) by (eapply Permutation_NoDup; [apply Permutation_sym, Permutation_map, HP|exact Hnd]).
    assert (Hp := parse_show i r Hi Hr). rewrite Hnames in Hp. specialize (Hp Hnd').
    assert (Hm : mode_of r <> MRate).
    { unfold r. destruct l as [|y l]; [discriminate|]. cbn [rest_items mode_of]. destruct (key x <? key y); discriminate. }
    set (prefs := loop_result (mode_of r) 1 i r) in *.
    assert (Hp' : parse_prefstr (show_prefs i r) = Ok (prefs, map fst (x :: l))).
    { rewrite Hp. unfold prefs. destruct (mode_of r); [reflexivity|congruence|reflexivity]. }
    assert (Hkeys : dkeys prefs = map fst (x :: l)).
    { unfold prefs. rewrite loop_result_keys. exact Hnames. }
    exists (show_prefs i r), prefs. split; [exact Et|]. split; [apply safe_prefs; assumption|]. split; [rewrite Hkeys; exact Hp'|].
    split; [rewrite Hkeys; apply Permutation_map, HP|]. intros w Ew.
    assert (HR := loop_result_ranks (mode_of r) r Hm 1 i). unfold r at 3, i at 2 in HR. rewrite rest_ranks in HR.
    assert (HT := loop_result_ratings (mode_of r) r 1 i). fold prefs in HR, HT.
    assert (Hdp : NoDup (dkeys prefs)) by (rewrite Hkeys; exact Hnd').
    assert (Hlen : length prefs = S (length l)).
    { rewrite <- (map_length fst prefs). change (map fst prefs) with (dkeys prefs). rewrite Hkeys, map_length. reflexivity. }
    (* each listed candidate: its old entry, its new entry, its place *)
    assert (G : forall c, match dget c (v_prefs v) with
              | Some p => exists q z, dget c prefs = Some q /\ In ((c, p), z) (dr key 1 x l) /\ p_rank q = Some z /\ p_rating q = stored_rating (as_written c p)
              | None => dget c prefs = None end).
    { intro c. destruct (dget c (v_prefs v)) as [p|] eqn:Ec.
      - assert (Hin : In (c, p) (x :: l)) by (apply (Permutation_in _ (Permutation_sym HP)), dget_In, Ec).
        assert (Hc : In c (dkeys prefs)) by (rewrite Hkeys; apply (in_map fst _ (c, p)), Hin).
        apply dget_Some_In in Hc as [q Eq]. exists q. pose proof (dget_In _ _ _ Eq) as Hq.
        assert (H1 : In (c, p_rank q) (map (fun kv => (fst kv, p_rank (snd kv))) prefs)) by (apply in_map_iff; exists (c, q); auto).
        rewrite HR, map_map in H1. apply in_map_iff in H1 as ([[c1 p1] z]&E1&Hz). cbn [fst snd] in E1. injection E1 as -> E1.
        exists z. split; [exact Eq|].
        assert (Ep1 : p1 = p).
        { assert (Hin1 : In (c, p1) (x :: l)) by (rewrite <- (dr_fst key l 1 x); apply (in_map fst _ (c, p1, z)), Hz).
          pose proof (dget_In_nodup c p1 (x :: l) Hnd' Hin1). pose proof (dget_In_nodup c p (x :: l) Hnd' Hin). congruence. }
        subst p1. split; [exact Hz|]. split; [congruence|].
        assert (H2 : In (c, p_rating q) (map (fun kv => (fst kv, p_rating (snd kv))) prefs)) by (apply in_map_iff; exists (c, q); auto).
        rewrite HT in H2. apply in_map_iff in H2 as (j&E2&Hj). injection E2 as E2 E3.
        assert (Hj' : exists np, In np (x :: l) /\ j = as_item np).
        { unfold items in Hj. destruct Hj as [<-|Hj]; [exists x; split; [left; reflexivity|reflexivity]|].
          apply in_map_iff in Hj as ([d j']&<-&Hj). destruct (rest_delims _ _ _ _ _ Hj) as (_&np&Hnp&->). exists np. split; [right; exact Hnp|reflexivity]. }
        destruct Hj' as ([c2 p2]&Hin2&->). rewrite as_item_name in E2. cbn [fst] in E2. subst c2.
        assert (p2 = p).
        { pose proof (dget_In_nodup c p2 (x :: l) Hnd' Hin2). pose proof (dget_In_nodup c p (x :: l) Hnd' Hin). congruence. }
        subst p2. rewrite <- E3. reflexivity.
      - apply dget_None. rewrite Hkeys. apply dget_None in Ec. intro Hc. apply Ec. apply (Permutation_in _ (Permutation_map fst HP)), Hc. }
    assert (Horder : forall a b p p' z z' k k', dget a (v_prefs v) = Some p -> dget b (v_prefs v) = Some p' ->
       In ((a, p), z) (dr key 1 x l) -> In ((b, p'), z') (dr key 1 x l) -> p_rank p = Some k -> p_rank p' = Some k' -> (z < z' <-> k < k')).
    { intros a b p p' z z' k k' Ha Hb Hz Hz' Ek Ek'. rewrite (dr_order key l 1 x HS _ _ _ _ Hz Hz').
      destruct Hkey as [-> |[-> Hall]].
      - unfold rank_key. cbn [snd]. rewrite Ek, Ek'. reflexivity.
      - rewrite (Hrk Hall a b p p' k k' (dget_In _ _ _ Ha) (dget_In _ _ _ Hb) Ek Ek').
        unfold rating_on, rate_key. rewrite Ha, Hb. cbn [snd]. unfold rating_num.
        destruct (p_rating p) as [ra|] eqn:Era; [|destruct (Hall a p (dget_In _ _ _ Ha) Era)].
        destruct (p_rating p') as [rb|] eqn:Erb; [|destruct (Hall b p' (dget_In _ _ _ Hb) Erb)]. lia. }
    split; [|split; [|split; [|split]]].
    + intros a b. unfold prefers, rank_on. rewrite Ew. pose proof (G a) as Ga. pose proof (G b) as Gb.
      destruct (dget a (v_prefs v)) as [p|] eqn:Ea.
      * destruct Ga as (q&z&Eq&Hz&Ez&_). rewrite Eq, Ez. destruct (Hw a p (dget_In _ _ _ Ea)) as (_&Hra&_).
        destruct (p_rank p) as [k|] eqn:Ek; [|congruence]. destruct (dget b (v_prefs v)) as [p'|] eqn:Eb.
        -- destruct Gb as (q'&z'&Eq'&Hz'&Ez'&_). rewrite Eq', Ez'. destruct (Hw b p' (dget_In _ _ _ Eb)) as (_&Hrb&_).
           destruct (p_rank p') as [k'|] eqn:Ek'; [|congruence]. pose proof (Horder a b p p' z z' k k' Ea Eb Hz Hz' Ek Ek') as O.
           destruct (Z.ltb_spec z z'), (Z.ltb_spec k k'); reflexivity || lia.
        -- rewrite Gb. reflexivity.
      * rewrite Ga. reflexivity.
    + intro c. unfold lists. rewrite Ew. pose proof (G c) as Gc. destruct (dget c (v_prefs v)) as [p|]; [destruct Gc as (q&z&->&_)|rewrite Gc]; reflexivity.
    + intro c. unfold rating_on. rewrite Ew. pose proof (G c) as Gc. destruct (dget c (v_prefs v)) as [p|] eqn:Ec.
      * destruct Gc as (q&z&->&_&_&->). apply stored_as_written. apply (Hw c p (dget_In _ _ _ Ec)).
      * rewrite Gc. reflexivity.
    + intros c Hc. unfold lists in Hc. unfold rank_on. rewrite Ew in *. pose proof (G c) as Gc. destruct (dget c (v_prefs v)) as [p|] eqn:Ec.
      * destruct Gc as (q&z&Eq&Hz&Ez&_). rewrite Eq. exists z. split; [exact Ez|].
        destruct (dr_low key l 1 x _ _ HS Hz) as (_&Hlo&_). pose proof (dr_bound key l 1 x _ _ Hz). rewrite Hlen. lia.
      * rewrite Gc in Hc. discriminate.
    + unfold line_rated. rewrite Ew. apply forallb_forall. intros [c q] Hq. cbn [snd]. pose proof (dget_In_nodup c q prefs Hdp Hq) as Eq.
      pose proof (G c) as Gc. destruct (dget c (v_prefs v)) as [p|] eqn:Ec; [|congruence]. destruct Gc as (q'&z&Eq'&_&_&Er).
      rewrite Eq in Eq'. apply some_inj in Eq'. subst q'. rewrite Er. apply stored_readable. apply (Hw c p (dget_In _ _ _ Ec)).
Qed.
