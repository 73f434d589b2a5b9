(** * PreflibFacts: what the PrefLib converter does to each kind of line *)

From Coq Require Import Lia.
From Verif Require Import PyBase PyFacts Jabmod Regex RegexFacts ParserModel ParserSpec ParserFacts ParserFile ParserText ParserLines PropsParser TextFacts ImportSpec RoundtripFile ImportFacts PreflibModel.
Local Open Scope Z_scope.

(** ** Patterns *)
Lemma one_line_any s : one_line s -> forallb any_char s = true.
Proof. intro H. apply forallb_forall. intros c Hc. unfold any_char. destruct (N.eqb_spec c 10) as [->|]; [|reflexivity]. specialize (H _ Hc). discriminate. Qed.
Lemma g_word w s cs k x : k s cs = Some x -> rm (R := caps * str) (RWord w) (w ++ s) cs k = Some x.
Proof.
  revert cs k. induction w as [|c w IH]; intros cs k H; [exact H|]. cbn [RWord app]. apply g_seq. apply g_lit. apply IH, H.
Qed.

Lemma altname_match num name : one_line name -> exists g s, re_match ALTNAME_REGEX (show_pl (PlName num name)) = Some (g, s) /\ group 2 g = name.
Proof.
  intro H. exists [(2%nat, name); (1%nat, n2s num)], []. split; [|reflexivity]. unfold re_match, ALTNAME_REGEX, RSeqs, show_pl.
  destruct (n2s_numeral num) as [Hne Hd].
  apply g_seq, g_word, g_seq. apply g_grp_plus; [exact Hne|exact Hd|cbn; auto|]. apply g_seq, g_word, g_seq.
  rewrite <- (app_nil_r name) at 1. apply g_grp_star; [apply one_line_any, H|cbn; auto|]. apply g_end. reflexivity.
Qed.
Lemma altname_needs s g r : re_match ALTNAME_REGEX s = Some (g, r) -> exists t, s = u "# ALTERNATIVE NAME " ++ t.
Proof. intro H. apply re_match_sound in H. unfold ALTNAME_REGEX, RSeqs in H. apply rmat_seq_inv in H as (s1&cs1&H&_). apply rmat_word_inv in H as (->&_). eauto. Qed.
Lemma strip_prefix_app p s : strip_prefix p (p ++ s) = Some s.
Proof. induction p as [|c p IH]; [reflexivity|]. cbn. rewrite N.eqb_refl. exact IH. Qed.
Lemma altname_header text : strip_prefix (u " ALTERNATIVE NAME ") text = None -> re_match ALTNAME_REGEX (show_pl (PlHeader text)) = None.
Proof.
  intro H. destruct (re_match _ _) as [[g r]|] eqn:E; [|reflexivity]. apply altname_needs in E as (t&E). cbn [show_pl] in E.
  change (u "# ALTERNATIVE NAME " ++ t) with (35%N :: (u " ALTERNATIVE NAME " ++ t)) in E. cbn [app] in E.
  assert (Et : text = u " ALTERNATIVE NAME " ++ t) by (injection E; auto). rewrite Et, strip_prefix_app in H. discriminate.
Qed.
Lemma altname_ranking q tiers : re_match ALTNAME_REGEX (show_pl (PlRanking q tiers)) = None.
Proof.
  destruct (re_match _ _) as [[g r]|] eqn:E; [|reflexivity]. apply altname_needs in E as (t&E). cbn [show_pl] in E.
  destruct (n2s_numeral q) as [Hne Hd]. destruct (n2s q) as [|c ds]; [congruence|]. change (u "# ALTERNATIVE NAME " ++ t) with (35%N :: (u " ALTERNATIVE NAME " ++ t)) in E.
  cbn [app] in E. injection E as -> _. discriminate Hd.
Qed.
Lemma ranking_needs s g r : re_match RANKING_REGEX s = Some (g, r) -> starts is_digit s = true.
Proof.
  intro H. apply re_match_sound in H. unfold RANKING_REGEX, RSeqs in H. apply rmat_seq_inv in H as (s1&cs1&H&_). apply rmat_grp_inv in H as (a&cs2&_&_&H).
  apply rmat_plus_inv in H as (d&Hne&->&Hd&_). destruct d as [|c d]; [congruence|]. cbn in Hd |- *. apply andb_prop in Hd as (Hd&_). exact Hd.
Qed.
Lemma ranking_hash s : re_match RANKING_REGEX (35%N :: s) = None.
Proof. destruct (re_match _ _) as [[g r]|] eqn:E; [|reflexivity]. apply ranking_needs in E. discriminate. Qed.
Lemma ranking_match q tiers : one_line (join [44%N] (map (fun pt => fst pt ++ show_tier (snd pt)) tiers)) ->
  exists g s, re_match RANKING_REGEX (show_pl (PlRanking q tiers)) = Some (g, s) /\ group 1 g = n2s q /\
    group 2 g = join [44%N] (map (fun pt => fst pt ++ show_tier (snd pt)) tiers).
Proof.
  cbn [show_pl]. set (t := join _ _). intro H. exists [(2%nat, t); (1%nat, n2s q)], []. split; [|split; reflexivity]. unfold re_match, RANKING_REGEX, RSeqs.
  destruct (n2s_numeral q) as [Hne Hd].
  apply g_seq, g_grp_plus; [exact Hne|exact Hd|cbn; auto|]. apply g_seq, g_word.
  rewrite <- (app_nil_r t) at 1. apply g_grp_star; [apply one_line_any, H|cbn; auto|]. reflexivity.
Qed.

(** ** Splitting a ranking *)
Lemma split_plain a s : forall cur, (forall c, In c a -> c <> 123%N /\ c <> 44%N) -> split_parts false cur (a ++ s) = split_parts false (rev a ++ cur) s.
Proof.
  induction a as [|c a IH]; intros cur H; [reflexivity|]. cbn [app split_parts]. destruct (H c (or_introl eq_refl)) as (H1&H2).
  apply N.eqb_neq in H1, H2. rewrite H1, H2. cbn [andb]. rewrite IH by (intros x Hx; apply H; right; exact Hx). cbn [rev]. rewrite <- app_assoc. reflexivity.
Qed.
Lemma split_inside b s : forall cur, (forall c, In c b -> c <> 125%N) -> split_parts true cur (b ++ 125%N :: s) = (rev cur ++ b ++ [125%N]) :: split_parts false [] s.
Proof.
  induction b as [|c b IH]; intros cur H; cbn [app split_parts].
  - change (125 =? 125)%N with true. cbv iota. cbn [rev]. reflexivity.
  - pose proof (H c (or_introl eq_refl)) as H1. apply N.eqb_neq in H1. rewrite H1. rewrite IH by (intros x Hx; apply H; right; exact Hx). cbn [rev]. rewrite <- app_assoc. reflexivity.
Qed.
Lemma split_brace cur b s : (forall c, In c b -> c <> 125%N) ->
  split_parts false cur ([123%N] ++ b ++ [125%N] ++ s) = rev cur :: ([123%N] ++ b ++ [125%N]) :: split_parts false [] s.
Proof.
  intro H. cbn [app split_parts]. change (123 =? 123)%N with true.
  assert (E : existsb (N.eqb 125) (b ++ 125%N :: s) = true) by (apply existsb_exists; exists 125%N; split; [apply in_or_app; right; left; reflexivity|reflexivity]).
  rewrite E. cbn [andb]. rewrite split_inside by exact H. reflexivity.
Qed.

Lemma ascii_range c : ascii_digit c = true -> (48 <= c <= 57)%N.
Proof. unfold ascii_digit. intro H. apply andb_prop in H as (H1&H2). apply N.leb_le in H1, H2. lia. Qed.
Lemma n2s_chars n c : In c (n2s n) -> (48 <= c <= 57)%N.
Proof. intro H. pose proof (n2s_ascii n) as Ha. rewrite forallb_forall in Ha. apply ascii_range, Ha, H. Qed.
Lemma numbers_chars ns c : In c (join [44%N] (map n2s ns)) -> c = 44%N \/ (48 <= c <= 57)%N.
Proof.
  intro H. apply In_join in H as [[<-|[]]|(x&Hx&Hc)]; [left; reflexivity|]. apply in_map_iff in Hx as (n&<-&_). right. apply (n2s_chars n), Hc.
Qed.

(** The parts of a ranking that are kept. *)
Definition part_of (pt : str * pl_tier) : str :=
  match snd pt with One n => fst pt ++ n2s n | Tied ns => show_tier (Tied ns) end.

Definition pad_ok (pad : str) : Prop := forall c, In c pad -> is_space c = true.
Lemma pad_plain pad c : pad_ok pad -> In c pad -> c <> 123%N /\ c <> 44%N.
Proof. intros H Hc. specialize (H c Hc). split; intros ->; discriminate. Qed.

Lemma skipped_blank pad : pad_ok pad -> skipped_part pad = true.
Proof.
  intro H. unfold skipped_part. destruct pad as [|c pad]; [reflexivity|]. apply orb_true_intro. right. apply forallb_forall. exact H.
Qed.
Lemma kept_part pt : pad_ok (fst pt) -> skipped_part (part_of pt) = false.
Proof.
  intro Hp. destruct pt as [pad [n|ns]]; unfold part_of; cbn [fst snd] in *.
  - destruct (n2s_numeral n) as [Hne Hd]. assert (Hin : exists c, In c (n2s n)) by (destruct (n2s n) as [|c r]; [congruence|exists c; left; reflexivity]). destruct Hin as (c&Hc).
    unfold skipped_part. destruct (pad ++ n2s n) as [|x r] eqn:E; [apply app_eq_nil in E as (_&E); congruence|]. rewrite <- E. apply orb_false_intro.
    + destruct (str_eqb_spec (pad ++ n2s n) [44%N]) as [E2|]; [|reflexivity]. exfalso. assert (Hin : In c [44%N]) by (rewrite <- E2; apply in_or_app; right; exact Hc).
      destruct Hin as [<-|[]]. apply n2s_chars in Hc. lia.
    + destruct (forallb is_space (pad ++ n2s n)) eqn:Ef; [|reflexivity]. exfalso. rewrite forallb_forall in Ef. assert (Hs : is_space c = true) by (apply Ef, in_or_app; right; exact Hc).
      rewrite forallb_forall in Hd. specialize (Hd c Hc). apply digit_not_space in Hd. congruence.
  - cbn [show_tier app]. unfold skipped_part. cbn [forallb]. apply orb_false_intro; [|reflexivity]. reflexivity.
Qed.

Definition kept (l : list str) : list str := filter (fun p => negb (skipped_part p)) l.
Lemma split_ranking tiers : (forall pt, In pt tiers -> pad_ok (fst pt)) ->
  kept (split_parts false [] (join [44%N] (map (fun pt => fst pt ++ show_tier (snd pt)) tiers))) = map part_of tiers.
Proof.
  induction tiers as [|pt ts IH]; intro H; [reflexivity|].
  assert (Hp : pad_ok (fst pt)) by (apply H; left; reflexivity).
  assert (G : forall s rest, split_parts false [] s = rest -> forall tail, (tail = [] /\ s = [] /\ rest = [[]] \/ tail = 44%N :: s) ->
     kept (split_parts false [] ((fst pt ++ show_tier (snd pt)) ++ tail)) = part_of pt :: kept (match tail with [] => [] | _ => rest end)).
  { intros s rest Er tail Ht. pose proof (kept_part pt Hp) as Hk. destruct pt as [pad [n|ns]]; cbn [fst snd] in *.
    - cbn [show_tier]. rewrite split_plain. 2:{ intros c Hc. apply in_app_or in Hc as [Hc|Hc]; [apply (pad_plain pad c Hp Hc)|]. apply n2s_chars in Hc. split; intros ->; lia. }
      rewrite app_nil_r. change (part_of (pad, One n)) with (pad ++ n2s n) in *. destruct Ht as [(->&->&->)| ->].
      + cbn [split_parts]. rewrite rev_involutive. unfold kept. cbn [filter]. rewrite Hk. reflexivity.
      + cbn [split_parts]. change (44 =? 123)%N with false. change (44 =? 44)%N with true. cbn [andb]. cbv iota. rewrite rev_involutive, Er. unfold kept. cbn [filter]. rewrite Hk. reflexivity.
    - change (part_of (pad, Tied ns)) with (show_tier (Tied ns)) in *. cbn [show_tier] in *. rewrite <- !app_assoc. rewrite split_plain by (intros c Hc; apply (pad_plain pad c Hp Hc)).
      rewrite split_brace by (intros c Hc; apply numbers_chars in Hc as [->|Hc]; [discriminate|intros ->; lia]).
      rewrite app_nil_r, rev_involutive. unfold kept. cbn [filter]. rewrite (skipped_blank pad Hp). cbn [negb]. rewrite Hk. cbn [negb]. f_equal.
      destruct Ht as [(->&->&->)| ->]; [reflexivity|]. cbn [split_parts]. change (44 =? 123)%N with false. change (44 =? 44)%N with true. cbn [andb]. cbv iota. rewrite Er. reflexivity. }
  cbn [map]. destruct ts as [|t2 ts].
  - cbn [map join]. pose proof (G [] [[]] eq_refl [] (or_introl (conj eq_refl (conj eq_refl eq_refl)))) as G0. rewrite app_nil_r in G0. exact G0.
  - cbn [map]. specialize (IH (fun p Hp' => H p (or_intror Hp'))). cbn [map] in IH.
    change (join [44%N] (?x :: ?y :: ?l)) with (x ++ [44%N] ++ join [44%N] (y :: l)).
    set (rest := join [44%N] _) in *. refine (eq_trans (G rest _ eq_refl ([44%N] ++ rest) (or_intror eq_refl)) _). cbn [app]. f_equal. exact IH.
Qed.

(** ** Digit runs *)
Lemma runs_digits d : forall cur s, forallb is_digit d = true -> digit_runs cur (d ++ s) = digit_runs (rev d ++ cur) s.
Proof. induction d as [|c d IH]; intros cur s H; [reflexivity|]. cbn [forallb] in H. apply andb_prop in H as (H1&H2). cbn [app digit_runs]. rewrite H1, IH by exact H2. cbn [rev]. rewrite <- app_assoc. reflexivity. Qed.
Lemma push_numeral d l : d <> [] -> push_run (rev d) l = d :: l.
Proof. intro H. unfold push_run. destruct (rev d) as [|c r] eqn:E; [apply (f_equal (@rev N)) in E; rewrite rev_involutive in E; cbn in E; congruence|]. rewrite <- E, rev_involutive. reflexivity. Qed.
Lemma runs_one n c s : is_digit c = false -> digit_runs [] (n2s n ++ c :: s) = n2s n :: digit_runs [] s.
Proof. intro H. destruct (n2s_numeral n) as [Hne Hd]. rewrite runs_digits by exact Hd. rewrite app_nil_r. cbn [digit_runs]. rewrite H. apply push_numeral, Hne. Qed.
Lemma runs_last n : digit_runs [] (n2s n) = [n2s n].
Proof. destruct (n2s_numeral n) as [Hne Hd]. rewrite <- (app_nil_r (n2s n)) at 1. rewrite runs_digits by exact Hd. rewrite app_nil_r. cbn [digit_runs]. apply push_numeral, Hne. Qed.
Lemma runs_pad pad s : pad_ok pad -> digit_runs [] (pad ++ s) = digit_runs [] s.
Proof.
  induction pad as [|c pad IH]; intro H; [reflexivity|]. cbn [app digit_runs].
  assert (Hc : is_digit c = false). { destruct (is_digit c) eqn:E; [|reflexivity]. apply digit_not_space in E. rewrite (H c (or_introl eq_refl)) in E. discriminate. }
  rewrite Hc. cbn [push_run]. apply IH. intros x Hx; apply H; right; exact Hx.
Qed.
Lemma runs_many ns : digit_runs [] (join [44%N] (map n2s ns) ++ [125%N]) = map n2s ns.
Proof.
  induction ns as [|n ns IH]; [reflexivity|]. destruct ns as [|n2 ns]; [cbn [map join]; rewrite runs_one by reflexivity; reflexivity|].
  change (map n2s (n :: n2 :: ns)) with (n2s n :: n2s n2 :: map n2s ns). change (join [44%N] (n2s n :: n2s n2 :: map n2s ns)) with (n2s n ++ [44%N] ++ join [44%N] (map n2s (n2 :: ns))).
  rewrite <- !app_assoc. cbn [app]. rewrite runs_one by reflexivity. rewrite IH. reflexivity.
Qed.
Lemma runs_part pt : pad_ok (fst pt) -> digit_runs [] (part_of pt) = map n2s (tier_numbers (snd pt)).
Proof.
  destruct pt as [pad [n|ns]]; intro H; unfold part_of; cbn [fst snd tier_numbers show_tier] in *.
  - rewrite runs_pad by exact H. apply runs_last.
  - cbn [app digit_runs]. change (is_digit 123) with false. cbv iota. cbn [push_run]. apply runs_many.
Qed.

(** ** Tokens *)
(** What shortnames[n - 1] gives. *)
Definition lookup (shorts : list str) (n : N) : result str := py_index shorts (Z.of_N n - 1).
Lemma lookup_in shorts n : (1 <= n <= N.of_nat (length shorts))%N -> lookup shorts n = Ok (nth (N.to_nat n - 1) shorts []).
Proof.
  intro H. unfold lookup, py_index. destruct (Z.ltb_spec (Z.of_N n - 1) 0) as [Hl|_]; [lia|]. destruct (Z.ltb_spec (Z.of_N n - 1) 0) as [Hl|_]; [lia|].
  replace (Z.to_nat (Z.of_N n - 1)) with (N.to_nat n - 1)%nat by lia. rewrite (nth_error_nth' shorts []) by lia. reflexivity.
Qed.
Lemma lookup_out shorts n : (N.of_nat (length shorts) < n)%N -> lookup shorts n = Err IndexError.
Proof.
  intro H. unfold lookup, py_index. destruct (Z.ltb_spec (Z.of_N n - 1) 0) as [Hl|_]; [lia|]. destruct (Z.ltb_spec (Z.of_N n - 1) 0) as [Hl|_]; [lia|].
  rewrite (proj2 (nth_error_None shorts _)) by lia. reflexivity.
Qed.
Lemma lookup_err shorts n e : lookup shorts n = Err e -> e = IndexError.
Proof. unfold lookup, py_index. destruct (_ <? _); [intro H; injection H as <-; reflexivity|]. destruct (nth_error _ _); intro H; [discriminate|injection H as <-; reflexivity]. Qed.

Lemma part_tier_eq shorts pt : pad_ok (fst pt) ->
  part_tier shorts (part_of pt) = bind (mapM (lookup shorts) (tier_numbers (snd pt))) (fun toks => Ok (join [61%N] toks)).
Proof.
  intro H. unfold part_tier. rewrite runs_part by exact H. f_equal. rewrite mapM_map. apply mapM_ext. intro n. rewrite py_int_n2s. reflexivity.
Qed.

Lemma mapM_all {A B} (f : A -> result B) (g : A -> B) l : (forall x, In x l -> f x = Ok (g x)) -> mapM f l = Ok (map g l).
Proof. induction l as [|x l IH]; intro H; [reflexivity|]. cbn [mapM map]. rewrite (H x (or_introl eq_refl)), IH by (intros y Hy; apply H; right; exact Hy). reflexivity. Qed.
Lemma mapM_err_only {A B} (f : A -> result B) e l x : In x l -> f x = Err e -> (forall y e', In y l -> f y = Err e' -> e' = e) -> mapM f l = Err e.
Proof.
  induction l as [|y l IH]; intros Hin Hx H; [destruct Hin|]. cbn [mapM]. destruct (f y) as [z|e'] eqn:E; cbn [bind].
  - destruct Hin as [->|Hin]; [congruence|]. rewrite (IH Hin Hx) by (intros w e' Hw; apply H; right; exact Hw). reflexivity.
  - rewrite (H y e' (or_introl eq_refl) E). reflexivity.
Qed.
Lemma mapM_errs {A B} (f : A -> result B) e l : (forall y e', In y l -> f y = Err e' -> e' = e) -> forall e', mapM f l = Err e' -> e' = e.
Proof.
  induction l as [|y l IH]; intros H e' E; [discriminate|]. cbn [mapM] in E. destruct (f y) as [z|e2] eqn:Ey; cbn [bind] in E.
  - destruct (mapM f l) as [zs|e3] eqn:Em; cbn [bind] in E; [discriminate|]. injection E as <-. apply IH; [intros w e'' Hw; apply H; right; exact Hw|reflexivity].
  - injection E as <-. apply (H y); [left; reflexivity|exact Ey].
Qed.

(** ** Rankings *)
Definition ranking_of (shorts : list str) (q : N) (tiers : list (list N)) : result str :=
  bind (mapM (fun t => bind (mapM (lookup shorts) t) (fun toks => Ok (join [61%N] toks))) tiers) (fun ts => Ok (n2s q ++ [58%N] ++ join [62%N] ts ++ [10%N])).

Lemma pl_pads tiers : pl_ok (PlRanking 0 tiers) -> forall pt, In pt tiers -> pad_ok (fst pt).
Proof. intros H [pad t] Hin. cbn [pl_ok fst] in *. destruct (H pad t Hin) as ((Hs&_)&_). rewrite forallb_forall in Hs. exact Hs. Qed.

Lemma one_line_join sep l : one_line sep -> (forall x, In x l -> one_line x) -> one_line (join sep l).
Proof. intros Hs H c Hc. apply In_join in Hc as [Hc|(x&Hx&Hc)]; [exact (Hs c Hc)|exact (H x Hx c Hc)]. Qed.
Lemma digits_one_line n : one_line (n2s n).
Proof. destruct (n2s_numeral n) as [_ Hd]. apply safe_one_line, safe_digits, Hd. Qed.
Lemma show_pl_one_line l : pl_ok l -> one_line (show_pl l).
Proof.
  destruct l as [text|num name|q tiers]; cbn [pl_ok show_pl].
  - intros (H&_) c [<-|Hc]; [reflexivity|exact (H c Hc)].
  - intro H. apply one_line_app; [apply printable_line; reflexivity|]. apply one_line_app; [apply digits_one_line|]. apply one_line_app; [apply printable_line; reflexivity|exact H].
  - intro H. apply one_line_app; [apply digits_one_line|]. apply one_line_app; [apply printable_line; reflexivity|]. apply one_line_join; [intros c [<-|[]]; reflexivity|].
    intros x Hx. apply in_map_iff in Hx as ([pad t]&<-&Hin). destruct (H pad t Hin) as ((_&Hp)&_). cbn [fst snd]. apply one_line_app; [exact Hp|].
    destruct t as [n|ns]; cbn [show_tier]; [apply digits_one_line|]. apply one_line_app; [intros c [<-|[]]; reflexivity|]. apply one_line_app; [|intros c [<-|[]]; reflexivity].
    apply one_line_join; [intros c [<-|[]]; reflexivity|]. intros x Hx. apply in_map_iff in Hx as (n&<-&_). apply digits_one_line.
Qed.

Lemma ranking_line_eq shorts l : pl_ok l ->
  ranking_line shorts (show_pl l) = match l with PlRanking q tiers => ranking_of shorts q (map (fun pt => tier_numbers (snd pt)) tiers) | _ => Ok [] end.
Proof.
  intro H. destruct l as [text|num name|q tiers].
  - unfold ranking_line. cbn [show_pl]. cbn [app]. rewrite ranking_hash. reflexivity.
  - unfold ranking_line. cbn [show_pl]. change (u "# ALTERNATIVE NAME " ++ n2s num ++ u ": " ++ name) with (35%N :: (u " ALTERNATIVE NAME " ++ n2s num ++ u ": " ++ name)). rewrite ranking_hash. reflexivity.
  - unfold ranking_line. destruct (ranking_match q tiers) as (g&s&E&E1&E2).
    { pose proof (show_pl_one_line _ H) as Ho. cbn [show_pl] in Ho. intros c Hc. apply Ho. apply in_or_app; right. apply in_or_app; right. exact Hc. }
    rewrite E, E1, E2. change (filter (fun p => negb (skipped_part p))) with kept. rewrite split_ranking by (apply pl_pads, H).
    unfold ranking_of. rewrite !mapM_map.
    assert (Em : mapM (fun x => part_tier shorts (part_of x)) tiers = mapM (fun x => bind (mapM (lookup shorts) (tier_numbers (snd x))) (fun toks => Ok (join [61%N] toks))) tiers).
    { pose proof (pl_pads tiers H) as Hp. clear -Hp. induction tiers as [|pt ts IH]; [reflexivity|]. cbn [mapM]. rewrite part_tier_eq by (apply Hp; left; reflexivity).
      rewrite IH by (intros x Hx; apply Hp; right; exact Hx). reflexivity. }
    rewrite Em. reflexivity.
Qed.

Lemma alt_names_eq ls : (forall l, In l ls -> pl_ok l) -> alt_names (pl_file ls) = pl_names ls.
Proof.
  intro H. unfold alt_names, pl_file. rewrite splitlines_unlines by (intros l Hl; apply in_map_iff in Hl as (x&<-&Hx); apply show_pl_one_line, H, Hx).
  unfold pl_names. induction ls as [|l ls IH]; [reflexivity|]. cbn [map flat_map]. rewrite IH by (intros x Hx; apply H; right; exact Hx). f_equal.
  pose proof (H l (or_introl eq_refl)) as Hl. destruct l as [text|num name|q tiers]; cbn [pl_ok] in Hl.
  - rewrite altname_header by apply Hl. reflexivity.
  - destruct (altname_match num name Hl) as (g&s&->&Eg). rewrite Eg. reflexivity.
  - rewrite altname_ranking. reflexivity.
Qed.

Definition rankings_of (shorts : list str) (rs : list (N * list (list N))) : result str :=
  bind (mapM (fun r => ranking_of shorts (fst r) (snd r)) rs) (fun ls => Ok (concat ls)).
Lemma rankings_eq shorts ls : (forall l, In l ls -> pl_ok l) -> rankings (pl_file ls) shorts = rankings_of shorts (pl_rankings ls).
Proof.
  intro H. unfold rankings, pl_file, rankings_of. rewrite splitlines_unlines by (intros l Hl; apply in_map_iff in Hl as (x&<-&Hx); apply show_pl_one_line, H, Hx).
  unfold pl_rankings. rewrite mapM_map. induction ls as [|l ls IH]; [reflexivity|]. cbn [mapM flat_map]. rewrite ranking_line_eq by (apply H; left; reflexivity).
  specialize (IH (fun x Hx => H x (or_intror Hx))). destruct l as [text|num name|q tiers].
  1,2: cbn [bind app]; destruct (mapM (fun x => ranking_line shorts (show_pl x)) ls); cbn [bind] in IH |- *; [rewrite <- IH; reflexivity|exact IH].
  cbn [app mapM fst snd]. destruct (ranking_of shorts q _); cbn [bind]; [|reflexivity].
  destruct (mapM (fun x => ranking_line shorts (show_pl x)) ls); cbn [bind] in IH |- *;
  destruct (mapM (fun r => ranking_of shorts (fst r) (snd r)) (flat_map _ ls)); cbn [bind] in IH |- *; try discriminate; [|exact IH].
  apply ok_inj in IH. cbn [concat]. rewrite IH. reflexivity.
Qed.
