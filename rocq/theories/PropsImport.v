(** * Properties C46-C49: PrefLib files and Debian tally sheets (abiflib/preflib.py, abiflib/debtally.py) *)

From Coq Require Import Lia Permutation.
From Verif Require Import PyBase PyFacts Jabmod Spec Regex RegexFacts ParserModel ParserSpec ParserFacts ParserFile ParserText ParserLines PropsParser TextFacts UrlText JsonFacts RoundtripFile.
From Verif Require Import PreflibModel DebtallyModel ImportSpec ImportFacts PreflibFacts DebtallyFacts.
Local Open Scope Z_scope.

(** ** Helpers: numbers and names *)
Lemma unlines_app a b : unlines (a ++ b) = unlines a ++ unlines b.
Proof. unfold unlines. rewrite flat_map_app. reflexivity. Qed.
Lemma unlines_concat {A} (f : A -> str) l : concat (map (fun x => f x ++ [10%N]) l) = unlines (map f l).
Proof. induction l as [|x l IH]; [reflexivity|]. cbn [map concat]. rewrite IH. reflexivity. Qed.

Lemma candidates_text : forall toks names : list str,
  concat (map (fun on : str * str => u "=" ++ fst on ++ u ":[" ++ snd on ++ u "]" ++ [10%N]) (combine toks names)) = unlines (map centry (combine toks names)).
Proof.
  intros toks names. rewrite <- unlines_concat. f_equal. apply map_ext. intros [t n]. unfold centry, candidate_line, cand_line. cbn [fst snd].
  rewrite <- !app_assoc. reflexivity.
Qed.
Lemma combine_map_l {X Y} (f : X -> Y) (l : list X) : combine (map f l) l = map (fun x => (f x, x)) l.
Proof. induction l as [|x l IH]; [reflexivity|]. cbn. rewrite IH. reflexivity. Qed.

Lemma declared_length ls : length (pl_declared ls) = length (pl_names ls).
Proof. unfold pl_declared, pl_names. induction ls as [|[t|n m|q t] ls IH]; cbn; rewrite ?IH; reflexivity. Qed.
Lemma name_of_number_nth ls : forall k n, pl_declared ls = map N.of_nat (seq k (length (pl_names ls))) -> (N.of_nat k <= n)%N ->
  name_of_number ls n = nth_error (pl_names ls) (N.to_nat n - k).
Proof.
  induction ls as [|l ls IH]; intros k n H Hn.
  - cbn. destruct (N.to_nat n - k)%nat; reflexivity.
  - destruct l as [t|num name|q t]; cbn [name_of_number pl_names flat_map app] in *; [apply IH; assumption| |apply IH; assumption].
    cbn [pl_declared flat_map app length seq map] in H. injection H as -> H. destruct (N.eqb_spec (N.of_nat k) n) as [<-|E].
    + rewrite Nat2N.id, Nat.sub_diag. reflexivity.
    + rewrite (IH (S k) n) by (try lia; exact H). replace (N.to_nat n - k)%nat with (S (N.to_nat n - S k)) by lia. reflexivity.
Qed.
Lemma token_nth ls n : numbered ls -> (1 <= n)%N -> token_of_number ls n = nth (N.to_nat n - 1) (map drop_spaces (pl_names ls)) [].
Proof.
  intros H Hn. unfold numbered in H. rewrite declared_length in H. unfold token_of_number. rewrite (name_of_number_nth ls 1 n H Hn).
  destruct (nth_error (pl_names ls) (N.to_nat n - 1)) as [x|] eqn:E.
  - rewrite nth_indep with (d' := drop_spaces []).
    + rewrite map_nth. rewrite (nth_error_nth _ _ _ E). reflexivity.
    + rewrite map_length. apply nth_error_Some. congruence.
  - rewrite nth_overflow; [reflexivity|]. rewrite map_length. apply nth_error_None, E.
Qed.
Definition in_range (ls : list pl_line) (n : N) : Prop := (1 <= n <= N.of_nat (length (pl_names ls)))%N.

Lemma ranking_in_range ls q tiers : numbered ls -> (forall t n, In t tiers -> In n t -> in_range ls n) ->
  ranking_of (map drop_spaces (pl_names ls)) q tiers = Ok ((n2s q ++ [58%N] ++ tiers_text (map (map (token_of_number ls)) tiers)) ++ [10%N]).
Proof.
  intros H Hr. unfold ranking_of. rewrite (mapM_all _ (fun t => join [61%N] (map (token_of_number ls) t))).
  - cbn [bind]. unfold tiers_text. rewrite map_map. do 1 f_equal. rewrite <- !app_assoc. reflexivity.
  - intros t Ht. rewrite (mapM_all _ (token_of_number ls)); [reflexivity|]. intros n Hn. destruct (Hr t n Ht Hn) as (H1&H2).
    rewrite lookup_in by (rewrite map_length; lia). rewrite token_nth by assumption. reflexivity.
Qed.

(** A file with two names, header lines, weak rankings and white space. *)
Definition pl_demo : list pl_line :=
  [ PlHeader (u " FILE NAME: demo.toc"); PlName 1 (u "Bob Kiss"); PlName 2 (u "Andy Montroll"); PlName 3 (u "Write-In");
    PlHeader (u " NUMBER VOTERS: 9");
    PlRanking 4 [([], One 2); ([], Tied [1; 3]%N)]; PlRanking 3 [([], One 3); (u " ", One 1)]; PlRanking 2 [] ].
Lemma blank_nil : blank []. Proof. split; [reflexivity|intros c []]. Qed.
Lemma blank_sp : blank (u " "). Proof. split; [reflexivity|intros c [<-|[]]; reflexivity]. Qed.
Lemma pl_demo_ok : (forall l, In l pl_demo -> pl_ok l) /\ numbered pl_demo /\ 
  (forall q tiers t n, In (q, tiers) (pl_rankings pl_demo) -> In t tiers -> In n t -> in_range pl_demo n).
Proof.
  split; [|split].
  - intros l Hl. repeat destruct Hl as [<-|Hl]; try destruct Hl; cbn [pl_ok];
      try (apply printable_line; reflexivity); try (split; [apply printable_line; reflexivity|reflexivity]);
      intros pad t Ht; repeat destruct Ht as [E|Ht]; try destruct Ht; injection E as <- <-; split; (apply blank_nil || apply blank_sp || discriminate).
  - vm_compute. reflexivity.
  - intros q tiers t n H1 H2 H3. unfold in_range. change (N.of_nat (length (pl_names pl_demo))) with 3%N.
    cbn in H1. repeat destruct H1 as [E|H1]; try destruct H1; injection E as <- <-; cbn in H2; repeat destruct H2 as [<-|H2]; try destruct H2; cbn in H3; intuition lia.
Qed.

(** ** C48 *)
(** A PrefLib file whose alternatives are declared in order, and whose rankings mention only declared
    numbers, is converted to: a candidate line for each alternative, a rule, and for each ranking a line
    with the same quantity and the same tiers, each number replaced by the token of its alternative. *)
Theorem C48_rankings_preserved : forall ls, (forall l, In l ls -> pl_ok l) -> numbered ls ->
  (forall q tiers t n, In (q, tiers) (pl_rankings ls) -> In t tiers -> In n t -> in_range ls n) ->
  convert_preflib_str_to_abif (pl_file ls) = Ok (unlines (
    map (fun name => candidate_line (without_spaces name) name) (pl_names ls) ++ [rule_line] ++
    map (fun r => n2s (fst r) ++ [58%N] ++ tiers_text (map (map (token_of_number ls)) (snd r))) (pl_rankings ls))).
Proof.
  intros ls H Hn Hr. unfold convert_preflib_str_to_abif. rewrite alt_names_eq, rankings_eq by exact H. unfold rankings_of.
  rewrite (mapM_all _ (fun r => (n2s (fst r) ++ [58%N] ++ tiers_text (map (map (token_of_number ls)) (snd r))) ++ [10%N])).
  - cbn [bind]. f_equal. rewrite unlines_concat, unlines_app, unlines_app. f_equal.
    refine (eq_trans (candidates_text _ _) _). rewrite combine_map_l, map_map. reflexivity.
  - intros [q tiers] Hin. apply ranking_in_range; [exact Hn|]. intros t n. apply (Hr q tiers t n Hin).
Qed.
Print Assumptions C48_rankings_preserved.

(** A ranking that mentions a number above the number of alternatives: IndexError. *)
Theorem C48_out_of_range : forall ls q tiers t n, (forall l, In l ls -> pl_ok l) ->
  In (q, tiers) (pl_rankings ls) -> In t tiers -> In n t -> (N.of_nat (length (pl_names ls)) < n)%N ->
  convert_preflib_str_to_abif (pl_file ls) = Err IndexError.
Proof.
  intros ls q tiers t n H H1 H2 H3 Hn. unfold convert_preflib_str_to_abif. rewrite alt_names_eq, rankings_eq by exact H. unfold rankings_of.
  set (shorts := map drop_spaces (pl_names ls)).
  assert (Etier : forall ns e, bind (mapM (lookup shorts) ns) (fun toks => Ok (join [61%N] toks)) = Err e -> e = IndexError).
  { intros ns e. destruct (mapM (lookup shorts) ns) as [x|e'] eqn:E; cbn [bind]; intro Ee; [discriminate|]. injection Ee as <-.
    apply (mapM_errs (lookup shorts) IndexError ns) in E; [exact E|]. intros y e'' _. apply lookup_err. }
  assert (Erank : forall q0 ts e, ranking_of shorts q0 ts = Err e -> e = IndexError).
  { intros q0 ts e. unfold ranking_of. match goal with |- context [mapM ?f ts] => destruct (mapM f ts) as [x|e'] eqn:E end; cbn [bind]; intro Ee; [discriminate|]. injection Ee as <-.
    eapply mapM_errs; [|exact E]. intros y e'' _. apply Etier. }
  assert (E : ranking_of shorts q tiers = Err IndexError).
  { unfold ranking_of. rewrite (mapM_err_only _ IndexError tiers t H2); [reflexivity| |].
    - rewrite (mapM_err_only (lookup shorts) IndexError t n H3); [reflexivity| |].
      + apply lookup_out. unfold shorts. rewrite map_length. exact Hn.
      + intros y e' _. apply lookup_err.
    - intros y e' _. apply Etier. }
  rewrite (mapM_err_only _ IndexError (pl_rankings ls) (q, tiers) H1 E); [reflexivity|]. intros y e' _. apply Erank.
Qed.
Print Assumptions C48_out_of_range.

(** Two findings.  Number 0, which no alternative has, denotes the last alternative instead of raising
    an error; and declared numbers are ignored: alternatives declared out of order get each other's votes. *)
Theorem C48_zero_refuted : ~ forall ls q tiers t n, (forall l, In l ls -> pl_ok l) -> numbered ls ->
  In (q, tiers) (pl_rankings ls) -> In t tiers -> In n t -> ~ in_range ls n ->
  exists e, convert_preflib_str_to_abif (pl_file ls) = Err e.
Proof.
  intro H. destruct (H [PlName 1 (u "A"); PlName 2 (u "B"); PlRanking 5 [([], One 0)]] 5%N [[0%N]] [0%N] 0%N) as (e&E).
  - intros l Hl. repeat destruct Hl as [<-|Hl]; try destruct Hl; cbn [pl_ok]; try (apply printable_line; reflexivity).
    intros pad t [E|[]]; injection E as <- <-; split; [apply blank_nil|discriminate].
  - vm_compute. reflexivity.
  - left; reflexivity.
  - left; reflexivity.
  - left; reflexivity.
  - unfold in_range. lia.
  - vm_compute in E. discriminate.
Qed.
Print Assumptions C48_zero_refuted.

Theorem C48_numbering_refuted : ~ forall ls, (forall l, In l ls -> pl_ok l) -> NoDup (pl_declared ls) ->
  (forall q tiers t n, In (q, tiers) (pl_rankings ls) -> In t tiers -> In n t -> In n (pl_declared ls)) ->
  exists pre, convert_preflib_str_to_abif (pl_file ls) = Ok (pre ++ unlines (
    map (fun r => n2s (fst r) ++ [58%N] ++ tiers_text (map (map (token_of_number ls)) (snd r))) (pl_rankings ls))).
Proof.
  intro H. destruct (H [PlName 2 (u "Bo"); PlName 1 (u "Al"); PlRanking 5 [([], One 1)]]) as (pre&E).
  - intros l Hl. repeat destruct Hl as [<-|Hl]; try destruct Hl; cbn [pl_ok]; try (apply printable_line; reflexivity).
    intros pad t [E|[]]; injection E as <- <-; split; [apply blank_nil|discriminate].
  - repeat constructor; cbn; intuition discriminate.
  - intros q tiers t n [E|[]] Ht Hn; injection E as <- <-. destruct Ht as [<-|[]]. destruct Hn as [<-|[]]. right; left; reflexivity.
  - unfold pl_file in E. assert (E2 : rev (unlines [u "=Bo:[Bo]"; u "=Al:[Al]"; rule_line; u "5:Bo"]) = rev (pre ++ unlines [u "5:Al"])).
    { f_equal. apply ok_inj. refine (eq_trans _ E). vm_compute. reflexivity. }
    rewrite rev_app_distr in E2. vm_compute in E2. discriminate.
Qed.
Print Assumptions C48_numbering_refuted.

Example C48_nonvacuous : convert_preflib_str_to_abif (pl_file pl_demo) = Ok (unlines
  [ u "=BobKiss:[Bob Kiss]"; u "=AndyMontroll:[Andy Montroll]"; u "=Write-In:[Write-In]"; u "# ---------------";
    u "4:AndyMontroll>BobKiss=Write-In"; u "3:Write-In>BobKiss"; u "2:" ]).
Proof. destruct pl_demo_ok as (H1&H2&H3). rewrite (C48_rankings_preserved _ H1 H2 H3). vm_compute. reflexivity. Qed.
Example C48_out_of_range_nonvacuous : convert_preflib_str_to_abif (pl_file (pl_demo ++ [PlRanking 1 [([], One 2); ([], One 4)]])) = Err IndexError.
Proof.
  apply (C48_out_of_range _ 1 [[2%N]; [4%N]] [4%N] 4).
  - intros l Hl. apply in_app_or in Hl as [Hl|[<-|[]]]; [apply pl_demo_ok, Hl|]. intros pad t [E|[E|[]]]; injection E as <- <-; split; (apply blank_nil || discriminate).
  - cbn. intuition.
  - right; left; reflexivity.
  - left; reflexivity.
  - vm_compute. reflexivity.
Qed.

(** ** C49 *)
Lemma plain_char_facts c : plain_char c = true -> is_linebreak c = false /\ c <> 35%N /\ c <> 93%N /\ c <> 91%N.
Proof. unfold plain_char. intro H. apply andb_prop in H as (H1&H2). destruct (is_linebreak c); [discriminate|]. split; [reflexivity|]. cbn in H2. lia. Qed.
Lemma import_char_facts c : import_char c = true -> plain_char c = true /\ c <> 34%N /\ c <> 47%N /\ c <> 58%N.
Proof. unfold import_char. intro H. apply andb_prop in H as (H1&H2). split; [exact H1|]. cbn in H2. lia. Qed.
Lemma has_none c s : (forall x, In x s -> x <> c) -> has c s = false.
Proof.
  intro H. unfold has. destruct (existsb (N.eqb c) s) eqn:E; [|reflexivity]. apply existsb_exists in E as (x&Hx&E). apply N.eqb_eq in E. subst x. destruct (H c Hx eq_refl).
Qed.
Lemma import_name_ok name : import_name name -> plain_token (without_spaces name) /\ table_entry_ok (without_spaces name, name).
Proof.
  intros (H1&H2&H3). rewrite forallb_forall in H1.
  assert (Ht : forall c, In c (without_spaces name) -> import_char c = true). { intros c Hc. apply filter_In in Hc as (Hc&_). exact (H1 c Hc). }
  split.
  - unfold plain_token, well_written. split; [|split; [|split; [|discriminate]]].
    + split; [exact H2|]. split; [|exact H3]. apply forallb_forall. intros c Hc. apply import_char_facts, Ht, Hc.
    + apply has_none. intros c Hc. apply (import_char_facts c), Ht, Hc.
    + apply has_none. intros c Hc. apply (import_char_facts c), Ht, Hc.
  - unfold table_entry_ok. cbn [fst snd]. split; [|split; [|split]].
    + unfold token_ok. split; [|split].
      * apply forallb_forall. intros c Hc. destruct (import_char_facts c (Ht c Hc)) as (P&P1&P2&P3). apply plain_char_facts in P as (_&_&P4&_). cbn. lia.
      * destruct (without_spaces name) as [|c r] eqn:E; [congruence|]. cbn. exact (strip_id_first _ H3 c r eq_refl).
      * destruct (without_spaces name) as [|c r] eqn:E; [congruence|]. cbn [starts]. destruct (import_char_facts c (Ht c (or_introl eq_refl))) as (P&_). apply plain_char_facts in P. apply N.eqb_neq. intuition congruence.
    + unfold name_ok. split; [|discriminate]. apply forallb_forall. intros c Hc. destruct (import_char_facts c (H1 c Hc)) as (P&_). apply plain_char_facts in P as (_&_&P4&_). cbn. lia.
    + intros c Hc. destruct (import_char_facts c (Ht c Hc)) as (P&_). apply plain_char_facts in P. split; tauto.
    + intros c Hc. destruct (import_char_facts c (H1 c Hc)) as (P&_). apply plain_char_facts in P. split; tauto.
Qed.
Lemma Forall2_trans_w {A B C} (P : A -> B -> Prop) (Q : B -> C -> Prop) (R : A -> C -> Prop) la lb lc :
  (forall a b c, P a b -> Q b c -> R a c) -> Forall2 P la lb -> Forall2 Q lb lc -> Forall2 R la lc.
Proof. intros H F1. revert lc. induction F1; intros lc F2; inversion F2; subst; constructor; eauto. Qed.
Lemma Forall2_map_l {A A' B} (f : A -> A') (P : A' -> B -> Prop) l l' : Forall2 P (map f l) l' -> Forall2 (fun a b => P (f a) b) l l'.
Proof. revert l'. induction l as [|x l IH]; intros l' F; inversion F; subst; constructor; auto. Qed.

Lemma NoDup_map_on {A B} (f : A -> B) l : (forall x y, In x l -> In y l -> f x = f y -> x = y) -> NoDup l -> NoDup (map f l).
Proof.
  intros Hf H. induction H as [|x l Hx H IH]; [constructor|]. cbn. constructor.
  - intro Hin. apply in_map_iff in Hin as (y&E&Hy). apply Hx. rewrite <- (Hf y x); [exact Hy|right; exact Hy|left; reflexivity|exact E].
  - apply IH. intros a b0 Ha Hb. apply Hf; right; assumption.
Qed.
Lemma token_inj ls n n' : numbered ls -> in_range ls n -> in_range ls n' -> NoDup (map without_spaces (pl_names ls)) ->
  token_of_number ls n = token_of_number ls n' -> n = n'.
Proof.
  intros H (H1&H2) (H1'&H2') Hd E. rewrite !token_nth in E by assumption.
  pose proof (proj1 (NoDup_nth (map drop_spaces (pl_names ls)) []) Hd (N.to_nat n - 1) (N.to_nat n' - 1))%nat as G. rewrite map_length in G.
  specialize (G ltac:(lia) ltac:(lia) E). lia.
Qed.
Lemma token_In ls n : numbered ls -> in_range ls n -> In (token_of_number ls n) (map without_spaces (pl_names ls)).
Proof. intros H (H1&H2). rewrite token_nth by assumption. apply nth_In. rewrite map_length. lia. Qed.

(** Converting a PrefLib file and reading the result as ABIF gives the alternatives as candidate table
    (token: the name without spaces; text: the name), and one voteline for every ranking line, with its
    quantity and its tiers (rank 1, 2, ...), listing nobody else; every ballot is counted.  The names are
    made of ordinary characters, stay distinct without spaces, and no ranking mentions a number twice. *)
Theorem C49_end_to_end : forall ls cleanws add_ratings, (forall l, In l ls -> pl_ok l) -> numbered ls ->
  (forall q tiers, In (q, tiers) (pl_rankings ls) -> NoDup (concat tiers) /\ (forall n, In n (concat tiers) -> in_range ls n)) ->
  pl_rankings ls <> [] ->
  (forall name, In name (pl_names ls) -> import_name name) -> NoDup (map without_spaces (pl_names ls)) ->
  exists text m vs, convert_preflib_str_to_abif (pl_file ls) = Ok text /\ convert_abif_to_jabmod text cleanws add_ratings false = Ok m /\
    j_candidates m = map (fun name => (without_spaces name, name)) (pl_names ls) /\
    Permutation (j_votelines m) vs /\
    Forall2 (fun r v => votes_tiers (fst r) (map (map (token_of_number ls)) (snd r)) v) (pl_rankings ls) vs /\
    dget k_ballotcount (j_metadata m) = Some (JInt (zsum (map (fun r => Z.of_N (fst r)) (pl_rankings ls)))) /\
    (add_ratings = false -> forall v c p, In v vs -> dget c (v_prefs v) = Some p -> p_rating p = None).
Proof.
  intros ls cw ar H Hn Hr Hne Hnames Hd.
  set (xs := map (fun r => Imported (fst r) (map (map (token_of_number ls)) (snd r)) [] []) (pl_rankings ls)).
  set (table := map (fun name => (without_spaces name, name)) (pl_names ls)).
  assert (Etab : map fst table = map without_spaces (pl_names ls)) by (unfold table; rewrite map_map; reflexivity).
  assert (Hrin : forall q tiers t n, In (q, tiers) (pl_rankings ls) -> In t tiers -> In n t -> in_range ls n).
  { intros q tiers t n Hin Ht Hi. apply (proj2 (Hr q tiers Hin)). apply in_concat. eauto. }
  assert (Hpl : forall l, In l ls -> pl_ok l) by exact H.
  assert (Hokr : forall q tiers t, In (q, tiers) (pl_rankings ls) -> In t tiers -> t <> []).
  { intros q tiers t Hin Ht. unfold pl_rankings in Hin. apply in_flat_map in Hin as (l&Hl&Hin). specialize (H l Hl). destruct l as [x|num name|q0 ts]; try destruct Hin.
    - injection H0 as <- <-. apply in_map_iff in Ht as ((pad&t0)&<-&Ht). cbn. apply (H pad t0 Ht).
    - destruct H0. }
  assert (Hconc : forall tiers : list (list N), concat (map (map (token_of_number ls)) tiers) = map (token_of_number ls) (concat tiers)) by (intro tiers; rewrite concat_map; reflexivity).
  assert (Hxs : forall x, In x xs -> imported_ok x /\ incl (concat (i_tiers x)) (map fst table)).
  { intros x Hx. unfold xs in Hx. apply in_map_iff in Hx as ((q&tiers)&<-&Hin). destruct (Hr q tiers Hin) as (Hnd&Hrange). split.
    - unfold imported_ok. cbn [i_pad i_com i_tiers fst snd]. split; [apply blank_nil|]. split; [left; reflexivity|]. split; [|split].
      + intros t Ht. apply in_map_iff in Ht as (t0&<-&Ht). pose proof (Hokr q tiers t0 Hin Ht). destruct t0; [congruence|discriminate].
      + intros c Hc. rewrite Hconc in Hc. apply in_map_iff in Hc as (n&<-&Hi). pose proof (token_In ls n Hn (Hrange n Hi)) as Ht. apply in_map_iff in Ht as (name&<-&Hname). apply import_name_ok, Hnames, Hname.
      + rewrite Hconc. apply NoDup_map_on; [|exact Hnd]. intros a b0 Ha Hb. apply token_inj; auto.
    - cbn [i_tiers snd]. intros c Hc. rewrite Hconc in Hc. apply in_map_iff in Hc as (n&<-&Hi). rewrite Etab. apply token_In; auto. }
  destruct (import_read [] table xs cw ar) as (m&ws&vs&E&Ec&Ev&F&Evw&Fw&_).
  - intros s [].
  - intros tn Htn. unfold table in Htn. apply in_map_iff in Htn as (name&<-&Hname). apply import_name_ok, Hnames, Hname.
  - rewrite Etab. exact Hd.
  - intros x Hx. apply (Hxs x Hx).
  - unfold xs. destruct (pl_rankings ls); [congruence|discriminate].
  - intros x Hx. apply (Hxs x Hx).
  - exists (unlines (import_lines [] table xs)), m, vs. split; [|split; [exact E|split; [exact Ec|]]].
    + rewrite (C48_rankings_preserved ls Hpl Hn Hrin). do 2 f_equal. unfold import_lines, table, xs. rewrite !map_map. cbn [map app]. f_equal. f_equal.
      apply map_ext. intros [q tiers]. unfold imported_line. cbn [i_qty i_tiers i_pad i_com fst snd]. rewrite !app_nil_r. reflexivity.
    + assert (P : Permutation (j_votelines m) vs) by (rewrite Ev; apply sort_desc_perm). split; [exact P|].
      assert (F' : Forall2 (fun r v => votes_tiers (fst r) (map (map (token_of_number ls)) (snd r)) v) (pl_rankings ls) vs).
      { apply (Forall2_map_l (fun r => Imported (fst r) (map (map (token_of_number ls)) (snd r)) [] []) (fun x v => votes_tiers (i_qty x) (i_tiers x) v)).
        eapply Forall2_trans_w; [|exact Fw|exact F]. cbn beta. intros x w v ((V1&V2&V3)&_) (S1&_&_&_&S5&S6&_). unfold votes_tiers. rewrite S1, S5. split; [exact V1|]. split; [|exact V3].
        intro c. rewrite S6. apply V2. }
      split; [exact F'|]. split; [|intro Ear; rewrite (Evw Ear); intros v c p Hv Hg; clear - Fw Hv Hg; induction Fw as [|x w xs0 ws0 (_&_&_&Hr) Fw IH]; [destruct Hv|destruct Hv as [<-|Hv]; [exact (Hr c p Hg)|exact (IH Hv)]]].
      rewrite (C28_ballotcount _ _ _ _ _ E). do 2 f_equal. rewrite (zsum_perm _ _ (Permutation_map v_qty P)). f_equal.
      clear - F'. induction F' as [|r v l l' (V&_) F' IH]; [reflexivity|]. cbn [map]. rewrite V, IH. reflexivity.
Qed.
Print Assumptions C49_end_to_end.

(** A finding: with a comma in a name (a plain character for PrefLib), the reader makes two candidates of it. *)
Definition comma_file : list pl_line := [ PlName 1 (u "Smith, John"); PlName 2 (u "Bo"); PlRanking 5 [([], One 1); ([], One 2)] ].
Theorem C49_comma_refuted : exists text m, convert_preflib_str_to_abif (pl_file comma_file) = Ok text /\
  convert_abif_to_jabmod text false false false = Ok m /\
  In (u "Smith") (dkeys (j_candidates m)) /\ In (u "John") (dkeys (j_candidates m)) /\
  (forall v, In v (j_votelines m) -> rank_on v (token_of_number comma_file 1) = None).
Proof.
  eexists. eexists. split; [vm_compute; reflexivity|]. split; [vm_compute; reflexivity|].
  split; [vm_compute; tauto|]. split; [vm_compute; tauto|]. intros v [<-|[]]. vm_compute. reflexivity.
Qed.
Print Assumptions C49_comma_refuted.

Example C49_nonvacuous :
  (forall name, In name (pl_names pl_demo) -> import_name name) /\ NoDup (map without_spaces (pl_names pl_demo)) /\
  exists text m, convert_preflib_str_to_abif (pl_file pl_demo) = Ok text /\ convert_abif_to_jabmod text false false false = Ok m /\
    dget k_ballotcount (j_metadata m) = Some (JInt 9) /\
    map (fun v => (v_qty v, rank_on v (u "BobKiss"), rank_on v (u "Write-In"))) (j_votelines m) = [(4, Some 2, Some 2); (3, Some 2, Some 1); (2, None, None)].
Proof.
  split; [|split].
  - intros name Hn. repeat destruct Hn as [<-|Hn]; try destruct Hn; (split; [vm_compute; reflexivity|split; [vm_compute; discriminate|vm_compute; reflexivity]]).
  - vm_compute. repeat constructor; cbn; intuition discriminate.
  - eexists. eexists. split; [vm_compute; reflexivity|]. split; [vm_compute; reflexivity|]. vm_compute. split; reflexivity.
Qed.

(** ** C47 *)
Definition no_newline (s : str) : Prop := ~ In 10%N s.
Lemma one_line_nl s : one_line s -> no_newline s. Proof. intros H Hin. specialize (H _ Hin). discriminate. Qed.
Lemma sub_nota_nl s : no_newline s -> no_newline (sub_nota 0 s).
Proof. intros H Hin. apply sub_nota_In in Hin as [Hin|Hin]; [exact (H Hin)|]. cbn in Hin. intuition discriminate. Qed.

(** Every token is at most 20 ASCII letters and digits, whatever the names and whatever the hash; there
    is one per option. *)
Theorem C47_short_tokens : forall sha1 seen names toks, bytes_only sha1 -> (forall name, In name names -> one_line name) ->
  short_option_names sha1 seen names = Ok toks ->
  length toks = length names /\ forall t, In t toks -> (length t <= 20)%nat /\ forallb letter_digit t = true.
Proof.
  intros sha1 seen names toks Hb Hn. revert seen toks Hn. induction names as [|o names IH]; intros seen toks Hn H; cbn [short_option_names] in H.
  - apply ok_inj in H. subst toks. split; [reflexivity|intros t []].
  - apply bind_ok in H as (t0&E0&H). apply bind_ok in H as (t&Et&H). apply bind_ok in H as (ts&Ets&H). apply ok_inj in H. subst toks.
    assert (Hnl : no_newline (sub_nota 0 o)) by (apply sub_nota_nl, one_line_nl, Hn; left; reflexivity).
    destruct (IH _ _ (fun x Hx => Hn x (or_intror Hx)) Ets) as (I1&I2). split; [cbn; rewrite I1; reflexivity|]. intros x [<-|Hx]; [|exact (I2 x Hx)].
    destruct (memb t0 seen).
    + exact (short_token_ok sha1 _ true t Hb Hnl Et).
    + apply ok_inj in Et. subst t0. exact (short_token_ok sha1 _ false t Hb Hnl E0).
Qed.
Print Assumptions C47_short_tokens.

(** The names are distinct enough: different abbreviations.  Then the tokens are the abbreviations, so
    they are distinct; the hash plays no role. *)
Lemma abbreviations_gen sha1 names : forall seen, (forall name, In name names -> one_line name /\ nota_free name) ->
  NoDup (map abbreviation names) -> (forall name, In name names -> ~ In (abbreviation name) seen) ->
  short_option_names sha1 seen names = Ok (map abbreviation names).
Proof.
  induction names as [|o names IH]; intros seen Hn Hd Hs; [reflexivity|]. cbn [short_option_names map].
  destruct (Hn o (or_introl eq_refl)) as (Ho&Hf). destruct (nota_abbrev o Hf (one_line_nl _ Ho)) as (Hnl&Ea).
  rewrite short_token_plain by exact Hnl. cbn [bind]. rewrite <- Ea.
  assert (Em : memb (abbreviation o) seen = false).
  { destruct (memb (abbreviation o) seen) eqn:E; [|reflexivity]. apply memb_In in E. destruct (Hs o (or_introl eq_refl) E). }
  rewrite Em. cbn [bind]. cbn [map] in Hd. inversion Hd as [|x l Hx Hd' Eq]; subst. rewrite IH; [reflexivity| |exact Hd'|].
  - intros name Hin. apply Hn. right; exact Hin.
  - intros name Hin [E|E]; [|apply (Hs name (or_intror Hin) E)]. apply Hx. rewrite E. apply in_map, Hin.
Qed.
Theorem C47_distinct_abbreviations : forall sha1 names, (forall name, In name names -> one_line name /\ nota_free name) ->
  NoDup (map abbreviation names) -> short_option_names sha1 [] names = Ok (map abbreviation names).
Proof. intros sha1 names Hn Hd. apply abbreviations_gen; auto. Qed.
Print Assumptions C47_distinct_abbreviations.

(** A clash is resolved with the checksum: two options with the same abbreviation get different tokens
    when the second one is not itself a plain token and the checksum makes a difference. *)
Theorem C47_clash_resolved : forall sha1 a b c, bytes_only sha1 -> one_line a -> one_line b -> nota_free a -> nota_free b ->
  abbreviation a = abbreviation b -> ((20 < length b)%nat \/ forallb letter_digit b = false) -> ~ is_nota b ->
  trunc_sha sha1 b = Ok c -> firstn 16 (filter letter_digit b) ++ c <> abbreviation b ->
  exists t, short_option_names sha1 [] [a; b] = Ok [abbreviation a; t] /\ t <> abbreviation a.
Proof.
  intros sha1 a b0 c Hb Ha Hb0 Hfa Hfb E Hlong Hnn Hc Hdiff. cbn [short_option_names].
  destruct (nota_abbrev a Hfa (one_line_nl _ Ha)) as (Hnl&Ea). destruct (nota_abbrev b0 Hfb (one_line_nl _ Hb0)) as (Hnl2&Eb).
  rewrite !short_token_plain by assumption. cbn [bind memb existsb]. rewrite <- Ea, <- Eb. rewrite <- E. cbn [memb existsb]. 
  destruct (str_eqb_spec (abbreviation a) (abbreviation a)) as [_|n]; [|congruence]. cbn [orb].
  assert (Es : sub_nota 0 b0 = b0) by (apply sub_nota_none; destruct Hfb as [Hfb|Hfb]; [contradiction|exact Hfb]). rewrite Es.
  assert (Et : deb_short_token sha1 b0 true = Ok (firstn 16 (filter letter_digit b0) ++ c)).
  { unfold deb_short_token. rewrite alnum_match by (apply one_line_nl, Hb0). destruct (_ && _) eqn:Ec.
    - apply andb_prop in Ec as (El&Ec). apply andb_prop in Ec as (Ef&_). apply Nat.leb_le in El. destruct Hlong as [Hl|Hl]; [lia|]. change (forallb letter_digit b0) with (forallb alnum b0) in Hl. congruence.
    - rewrite split_ws_filter, Hc. reflexivity. }
  rewrite Et. cbn [bind]. eexists. split; [reflexivity|]. rewrite E. exact Hdiff.
Qed.
Print Assumptions C47_clash_resolved.

(** Distinctness fails, for every hash: an option that is itself a plain token is never renamed. *)
Theorem C47_distinct_refuted : forall sha1,
  short_option_names sha1 [] [u "A b"; u "Ab"] = Ok [u "Ab"; u "Ab"].
Proof. intro sha1. reflexivity. Qed.
Print Assumptions C47_distinct_refuted.

Definition long_names : list str := [ u "Choice 1: Repeal the clause"; u "None of the above"; u "Further discussion"; u "Plan9" ].
Lemma printables l : forallb (forallb printable) l = true -> forall s, In s l -> one_line s.
Proof. intros H s Hs. rewrite forallb_forall in H. apply printable_line, H, Hs. Qed.
Fixpoint suffixes (s : str) : list str := s :: match s with [] => [] | _ :: r => suffixes r end.
Lemma suffixes_In a b : In b (suffixes (a ++ b)).
Proof. induction a as [|x a IH]; [destruct b; left; reflexivity|]. cbn. right. exact IH. Qed.
Lemma nota_free_dec s : forallb (fun t => negb (ci_prefix k_nota t)) (suffixes s) = true -> nota_free s.
Proof.
  intro H. right. intros a w b0 E Hw. rewrite forallb_forall in H. assert (Hin : In (w ++ b0) (suffixes s)) by (rewrite E; apply suffixes_In).
  specialize (H _ Hin). rewrite (proj2 (ci_prefix_spec k_nota (w ++ b0))) in H; [discriminate|]. exists w, b0. split; [reflexivity|exact Hw].
Qed.
Example C47_nonvacuous : (forall name, In name long_names -> one_line name /\ nota_free name) /\ NoDup (map abbreviation long_names) /\
  forall sha1, short_option_names sha1 [] long_names = Ok [u "Choice1Repealtheclau"; u "NOTA"; u "Furtherdiscussion"; u "Plan9"].
Proof.
  assert (H1 : forall name, In name long_names -> one_line name /\ nota_free name).
  { intros name Hn. split; [revert name Hn; apply printables; reflexivity|]. repeat destruct Hn as [<-|Hn]; try destruct Hn; try (apply nota_free_dec; vm_compute; reflexivity). left. reflexivity. }
  assert (H2 : NoDup (map abbreviation long_names)) by (vm_compute; repeat constructor; cbn; intuition discriminate).
  split; [exact H1|]. split; [exact H2|]. intro sha1. rewrite (C47_distinct_abbreviations sha1 _ H1 H2). vm_compute. reflexivity.
Qed.
(** A hash for which the clash rule applies. *)
Example C47_clash_nonvacuous : exists t, short_option_names (fun _ => [0; 0; 0; 0]%N) [] [u "Plan A (first)"; u "Plan A, first"] = Ok [u "PlanAfirst"; t] /\ t = u "PlanAfirstAAAA".
Proof. eexists. split; [vm_compute; reflexivity|reflexivity]. Qed.

(** ** C46 *)
Definition vote_line (toks : list str) (v : list (option N) * str) : str :=
  u "1:" ++ tiers_text (vote_tiers_of toks (fst v)) ++ u "  ##VID:" ++ snd v.
Definition meta_entry (kv : str * str) : str := u "{" ++ [34%N] ++ fst kv ++ [34%N] ++ u ": " ++ [34%N] ++ snd kv ++ [34%N] ++ u "}".

Lemma vote_ok_marks ls v : (forall l, In l ls -> deb_ok l) -> In v (deb_votes ls) ->
  (forall x, In (Some x) (fst v) -> (1 <= x <= 9)%N) /\ snd v <> [] /\ (forall c, In c (snd v) -> is_space c = false).
Proof.
  intros H Hv. unfold deb_votes in Hv. apply in_flat_map in Hv as (l&Hl&Hv). specialize (H l Hl). destruct l as [i n d p name|marks sep id rest|t]; try destruct Hv as [<-|[]]; try destruct Hv.
  destruct H as (_&Hm&_&_&Hid&Hi&_). cbn [fst snd]. auto.
Qed.
Lemma deb_names_one_line ls name : (forall l, In l ls -> deb_ok l) -> In name (deb_names ls) -> one_line name.
Proof.
  intros H Hn. unfold deb_names in Hn. apply in_flat_map in Hn as (l&Hl&Hn). specialize (H l Hl). destruct l as [i n d p nm|marks sep id rest|t]; try destruct Hn as [<-|[]]; try destruct Hn.
  destruct H as (_&_&_&_&H&_). exact H.
Qed.
Lemma tokens_length sha1 names : forall seen toks, short_option_names sha1 seen names = Ok toks -> length toks = length names.
Proof.
  induction names as [|o names IH]; intros seen toks H; cbn [short_option_names] in H; [apply ok_inj in H; subst; reflexivity|].
  apply bind_ok in H as (t0&E0&H). apply bind_ok in H as (t&Et&H). apply bind_ok in H as (ts&Ets&H). apply ok_inj in H. subst toks. cbn. rewrite (IH _ _ Ets). reflexivity.
Qed.

(** The converted sheet: metadata, a candidate line for each option, a rule, then for every vote line, in
    order, a line of quantity 1 with the options given rank 1, 2, ..., each rank one tier, and the
    voter's id.  [toks] are the options' tokens (C47). *)
Theorem C46_votes_preserved : forall sha1 ls metadata toks, (forall l, In l ls -> deb_ok l) ->
  (forall v, In v (deb_votes ls) -> (length (fst v) <= length (deb_names ls))%nat) ->
  short_option_names sha1 [] (deb_names ls) = Ok toks ->
  convert_debtally_to_abif sha1 (deb_sheet ls) metadata = Ok (unlines (
    map meta_entry metadata ++ map (fun tn => candidate_line (fst tn) (snd tn)) (combine toks (deb_names ls)) ++ [rule_line] ++
    map (vote_line toks) (deb_votes ls))).
Proof.
  intros sha1 ls md toks H Hl Ht. unfold convert_debtally_to_abif. rewrite option_names_eq, vline_rankings_eq by exact H. rewrite Ht. cbn [bind].
  pose proof (tokens_length _ _ _ _ Ht) as Elen. rewrite mapM_map. rewrite (mapM_all _ (fun v => vote_line toks v ++ [10%N])).
  - cbn [bind]. f_equal. rewrite unlines_concat, !unlines_app. f_equal; [|f_equal].
    + rewrite <- unlines_concat. f_equal. apply map_ext. intros [k x]. unfold meta_entry. cbn [fst snd]. rewrite <- !app_assoc. reflexivity.
    + exact (candidates_text _ _).
  - intros v Hv. destruct (vote_ok_marks ls v H Hv) as (Hm&_). cbn [fst snd]. rewrite <- Elen. rewrite vote_tiers_eq; [|rewrite Elen; apply Hl, Hv|exact Hm].
    cbn [bind]. f_equal. unfold vote_line, tiers_text. rewrite <- !app_assoc. reflexivity.
Qed.
Print Assumptions C46_votes_preserved.

(** A vote that gives a rank 1..n to an option the sheet does not declare: IndexError. *)
Lemma marked_at_In strrank m : forall i pref j, nth_error pref j = Some m -> str_eqb [m] strrank = true -> In (i + j)%nat (marked_at strrank i pref).
Proof.
  intros i pref. revert i. induction pref as [|x pref IH]; intros i j Hj E; [destruct j; discriminate|]. cbn [marked_at]. destruct j as [|j].
  - cbn in Hj. injection Hj as ->. rewrite E, Nat.add_0_r. left; reflexivity.
  - cbn in Hj. replace (i + S j)%nat with (S i + j)%nat by lia. destruct (str_eqb [x] strrank); [right|]; apply IH; assumption.
Qed.
Theorem C46_undeclared_option : forall sha1 ls metadata toks v i r, (forall l, In l ls -> deb_ok l) ->
  short_option_names sha1 [] (deb_names ls) = Ok toks -> In v (deb_votes ls) ->
  nth_error (fst v) i = Some (Some r) -> (length (deb_names ls) <= i)%nat -> (r <= N.of_nat (length (deb_names ls)))%N ->
  convert_debtally_to_abif sha1 (deb_sheet ls) metadata = Err IndexError.
Proof.
  intros sha1 ls md toks v i r H Ht Hv Hi Hlen Hr. unfold convert_debtally_to_abif. rewrite option_names_eq, vline_rankings_eq by exact H. rewrite Ht. cbn [bind].
  pose proof (tokens_length _ _ _ _ Ht) as Elen. rewrite mapM_map. destruct (vote_ok_marks ls v H Hv) as (Hm&_).
  assert (Hr1 : (1 <= r <= 9)%N) by (apply Hm; apply nth_error_In in Hi; exact Hi).
  assert (Eidx : forall pref k e, mapM (fun i => of_option IndexError (nth_error toks i)) (marked_at k 0 pref) = Err e -> e = IndexError).
  { intros pref k e E. apply (mapM_errs (fun i => of_option IndexError (nth_error toks i)) IndexError) in E; [exact E|]. intros y e' _ E'. destruct (nth_error toks y); [discriminate|]. injection E' as <-. reflexivity. }
  assert (Etiers : forall pref e, vote_tiers toks (length (deb_names ls)) pref = Err e -> e = IndexError).
  { intros pref e E. unfold vote_tiers in E. match type of E with bind ?t _ = _ => destruct t as [x|e'] eqn:E1 end; cbn [bind] in E; [discriminate|]. injection E as <-.
    eapply mapM_errs; [|exact E1]. cbn beta. intros y e'' _ E2. pose proof (Eidx pref (n2s (N.of_nat (y + 1)))) as G.
    destruct (marked_at (n2s (N.of_nat (y + 1))) 0 pref) as [|c0 crs]; [discriminate|].
    destruct (mapM (fun i0 => of_option IndexError (nth_error toks i0)) (c0 :: crs)) as [z|e3] eqn:E3; cbn [bind] in E2; [discriminate|]. injection E2 as <-. apply (G _ eq_refl). }
  rewrite (mapM_err_only _ IndexError (deb_votes ls) v Hv); [reflexivity| |].
  - cbn [fst snd].
    assert (E : vote_tiers toks (length (deb_names ls)) (map show_mark (fst v)) = Err IndexError); [|rewrite E; reflexivity].
    unfold vote_tiers. rewrite (mapM_err_only _ IndexError (seq 0 (length (deb_names ls))) (N.to_nat r - 1)%nat); [reflexivity| | |].
    + apply in_seq. lia.
    + cbn beta. replace (N.of_nat (N.to_nat r - 1 + 1)) with r by lia.
      assert (Hin : In (0 + i)%nat (marked_at (n2s r) 0 (map show_mark (fst v)))).
      { apply (marked_at_In (n2s r) (show_mark (Some r))); [rewrite nth_error_map, Hi; reflexivity|]. rewrite mark_eq by (intros x E; injection E as <-; exact Hr1). apply N.eqb_refl. }
      assert (Em : mapM (fun i0 => of_option IndexError (nth_error toks i0)) (marked_at (n2s r) 0 (map show_mark (fst v))) = Err IndexError).
      { apply (mapM_err_only _ IndexError _ (0 + i)%nat Hin).
        - cbn [Nat.add]. rewrite (proj2 (nth_error_None toks i)) by lia. reflexivity.
        - intros y e' _ E'. destruct (nth_error toks y); [discriminate|]. injection E' as <-. reflexivity. }
      destruct (marked_at (n2s r) 0 (map show_mark (fst v))) as [|c0 crs]; [destruct Hin|]. rewrite Em. reflexivity.
    + cbn beta. intros y e' _ E2. pose proof (Eidx (map show_mark (fst v)) (n2s (N.of_nat (y + 1)))) as G.
      destruct (marked_at (n2s (N.of_nat (y + 1))) 0 (map show_mark (fst v))) as [|c0 crs]; [discriminate|].
      destruct (mapM (fun i0 => of_option IndexError (nth_error toks i0)) (c0 :: crs)) as [z|e3] eqn:E3; cbn [bind] in E2; [discriminate|]. injection E2 as <-. apply (G _ eq_refl).
  - cbn beta. intros y e' _ E2. cbn [fst snd] in E2. pose proof (Etiers (map show_mark (fst y))) as G.
    destruct (vote_tiers toks (length (deb_names ls)) (map show_mark (fst y))) as [z|e3]; cbn [bind] in E2; [discriminate|]. injection E2 as <-. apply (G _ eq_refl).
Qed.
Print Assumptions C46_undeclared_option.

(** *** What the tiers mean *)
(** In the tiers of a vote, an option with rank r (1..n) stands in the tier after all options with a
    smaller rank, so options compare as their marks do; an option with a dash is left out. *)
Definition used (toks : list str) (marks : list (option N)) (a b : nat) : Z :=
  Z.of_nat (length (filter (fun r => match options_at toks marks (N.of_nat r) with [] => false | _ => true end) (seq a (b - a)))).
Lemma options_at_In toks marks r t : In t (options_at toks marks r) <-> exists i, nth_error toks i = Some t /\ nth_error marks i = Some (Some r).
Proof.
  unfold options_at. split.
  - intro H. apply in_map_iff in H as ((t'&m)&<-&H). apply filter_In in H as (H&E). cbn in E. destruct m as [x|]; [|discriminate]. apply N.eqb_eq in E. subst x.
    revert marks H. induction toks as [|a toks IH]; intros marks H; [destruct H|]. destruct marks as [|m marks]; [destruct H|]. cbn in H. destruct H as [E|H].
    + injection E as -> ->. exists 0%nat. split; reflexivity.
    + destruct (IH marks H) as (i&H1&H2). exists (S i). split; assumption.
  - intros (i&H1&H2). apply in_map_iff. exists (t, Some r). split; [reflexivity|]. apply filter_In. split; [|cbn; apply N.eqb_refl].
    revert i marks H1 H2. induction toks as [|a toks IH]; intros i marks H1 H2; [destruct i; discriminate|]. destruct i as [|i]; destruct marks as [|m marks]; cbn in *; try discriminate.
    + injection H1 as ->. injection H2 as ->. left; reflexivity.
    + right. apply (IH i); assumption.
Qed.
Lemma tier_rank_tiers toks marks t r : NoDup toks -> In t (options_at toks marks (N.of_nat r)) -> forall n k z, (k <= r < k + n)%nat ->
  tier_rank_from z (filter (fun t => match t with [] => false | _ => true end) (map (fun r => options_at toks marks (N.of_nat r)) (seq k n))) t = Some (z + used toks marks k r).
Proof.
  intros Hd Hin. induction n as [|n IH]; intros k z Hk; [lia|]. cbn [seq map filter]. destruct (Nat.eq_dec k r) as [->|Hne].
  - unfold used. rewrite Nat.sub_diag. cbn [seq filter length]. destruct (options_at toks marks (N.of_nat r)) as [|a l]; [destruct Hin|]. cbn [tier_rank_from].
    rewrite (proj2 (memb_In t (a :: l)) Hin). f_equal. lia.
  - assert (Hnot : ~ In t (options_at toks marks (N.of_nat k))).
    { intro Hin2. apply options_at_In in Hin as (i&H1&H2). apply options_at_In in Hin2 as (j&H3&H4). assert (i = j).
      { apply (proj1 (NoDup_nth_error toks) Hd); [apply nth_error_Some; congruence|congruence]. }
      subst j. rewrite H2 in H4. injection H4 as H4. apply Nat2N.inj in H4. congruence. }
    assert (Eu : used toks marks k r = (match options_at toks marks (N.of_nat k) with [] => 0 | _ => 1 end) + used toks marks (S k) r).
    { unfold used. replace (r - k)%nat with (S (r - S k)) by lia. cbn [seq filter]. destruct (options_at toks marks (N.of_nat k)); [reflexivity|]. cbn [length]. lia. }
    rewrite Eu. destruct (options_at toks marks (N.of_nat k)) as [|a l] eqn:Eo.
    + rewrite IH by lia. f_equal.
    + cbn [tier_rank_from]. destruct (memb t (a :: l)) eqn:Em; [apply memb_In in Em; contradiction|]. rewrite IH by lia. f_equal. lia.
Qed.
Lemma used_lt toks marks k a b : (k <= a < b)%nat -> options_at toks marks (N.of_nat a) <> [] -> used toks marks k a < used toks marks k b.
Proof.
  intros H Ho. unfold used. replace (b - k)%nat with ((a - k) + S (b - S a))%nat by lia. rewrite seq_app, filter_app, app_length. cbn [seq filter].
  replace (k + (a - k))%nat with a by lia. destruct (options_at toks marks (N.of_nat a)); [congruence|]. cbn [length]. lia.
Qed.
Lemma tier_rank_none toks marks t : (forall r, (1 <= r <= length toks)%nat -> ~ In t (options_at toks marks (N.of_nat r))) -> tier_rank (vote_tiers_of toks marks) t = None.
Proof.
  unfold tier_rank, vote_tiers_of. intro H. assert (G : forall n k z, (forall r, (k <= r < k + n)%nat -> ~ In t (options_at toks marks (N.of_nat r))) ->
    tier_rank_from z (filter (fun t => match t with [] => false | _ => true end) (map (fun r => options_at toks marks (N.of_nat r)) (seq k n))) t = None).
  { induction n as [|n IH]; intros k z Hk; [reflexivity|]. cbn [seq map filter]. pose proof (Hk k ltac:(lia)) as Hn. pose proof (fun z' => IH (S k) z' (fun r Hr => Hk r ltac:(lia))) as I.
    destruct (options_at toks marks (N.of_nat k)) as [|a l]; [apply I|]. cbn [tier_rank_from]. destruct (memb t (a :: l)) eqn:Em; [apply memb_In in Em; contradiction|]. apply I. }
  apply G. intros r Hr. apply H. lia.
Qed.

Theorem C46_ranks : forall toks marks i t, NoDup toks -> nth_error toks i = Some t ->
  (forall r, nth_error marks i = Some (Some r) -> (1 <= r <= N.of_nat (length toks))%N ->
     exists k, tier_rank (vote_tiers_of toks marks) t = Some k /\
       forall j t' r', nth_error toks j = Some t' -> nth_error marks j = Some (Some r') -> (1 <= r' <= N.of_nat (length toks))%N ->
         exists k', tier_rank (vote_tiers_of toks marks) t' = Some k' /\ (k < k' <-> (r < r')%N)) /\
  (nth_error marks i = Some None \/ nth_error marks i = None -> tier_rank (vote_tiers_of toks marks) t = None).
Proof.
  intros toks marks i t Hd Hi. split.
  - intros r Hr Hrange.
    assert (G : forall j t' r', nth_error toks j = Some t' -> nth_error marks j = Some (Some r') -> (1 <= r' <= N.of_nat (length toks))%N ->
      tier_rank (vote_tiers_of toks marks) t' = Some (1 + used toks marks 1 (N.to_nat r')) /\ options_at toks marks (N.of_nat (N.to_nat r')) <> []).
    { intros j t' r' H1 H2 H3. assert (Hin : In t' (options_at toks marks (N.of_nat (N.to_nat r')))) by (rewrite N2Nat.id; apply options_at_In; exists j; split; assumption).
      split; [|destruct (options_at toks marks (N.of_nat (N.to_nat r'))); [destruct Hin|discriminate]].
      unfold tier_rank, vote_tiers_of. apply (tier_rank_tiers toks marks t' (N.to_nat r') Hd Hin). lia. }
    destruct (G i t r Hi Hr Hrange) as (E&Hne). exists (1 + used toks marks 1 (N.to_nat r)). split; [exact E|]. intros j t' r' H1 H2 H3.
    destruct (G j t' r' H1 H2 H3) as (E'&Hne'). eexists. split; [exact E'|].
    destruct (N.lt_trichotomy r r') as [Hlt|[->|Hlt]].
    + pose proof (used_lt toks marks 1 (N.to_nat r) (N.to_nat r') ltac:(lia) Hne). split; lia.
    + split; lia.
    + pose proof (used_lt toks marks 1 (N.to_nat r') (N.to_nat r) ltac:(lia) Hne'). split; lia.
  - intro Hnone. apply tier_rank_none. intros r Hr Hin. apply options_at_In in Hin as (j&H1&H2). assert (i = j).
    { apply (proj1 (NoDup_nth_error toks) Hd); [apply nth_error_Some; congruence|congruence]. }
    subst j. destruct Hnone; congruence.
Qed.
Print Assumptions C46_ranks.

(** *** End to end *)
Lemma letter_digit_facts c : letter_digit c = true -> is_space c = false /\ plain_char c = true /\ c <> 34%N /\ c <> 47%N /\ c <> 58%N /\ c <> 93%N /\ c <> 91%N /\ c <> 35%N.
Proof.
  intro H. unfold letter_digit in H.
  assert (Hs : is_space c = false) by (unfold is_space; lia).
  assert (Hl : is_linebreak c = false) by (destruct (is_linebreak c) eqn:E; [apply linebreak_space in E; congruence|reflexivity]).
  split; [exact Hs|]. split; [|lia]. unfold plain_char. rewrite Hl. cbn [negb andb existsb]. lia.
Qed.
Lemma abbreviation_letters name : forallb letter_digit (abbreviation name) = true.
Proof. unfold abbreviation. destruct (str_eqb _ _); [reflexivity|]. apply forallb_firstn, forallb_filter. Qed.
Lemma abbreviation_ok name : abbreviation name <> [] -> (forall c, In c name -> c <> 93%N /\ c <> 35%N) -> one_line name ->
  plain_token (abbreviation name) /\ table_entry_ok (abbreviation name, name).
Proof.
  intros Hne Hc Hl. pose proof (abbreviation_letters name) as Ha. rewrite forallb_forall in Ha.
  assert (Hsp : forall c, In c (abbreviation name) -> is_space c = false) by (intros c Hi; apply letter_digit_facts, Ha, Hi).
  split.
  - unfold plain_token, well_written. split; [|split; [|split; [|discriminate]]].
    + split; [exact Hne|]. split; [|apply strip_nospace, Hsp]. apply forallb_forall. intros c Hi. apply letter_digit_facts, Ha, Hi.
    + apply has_none. intros c Hi. apply (letter_digit_facts c), Ha, Hi.
    + apply has_none. intros c Hi. apply (letter_digit_facts c), Ha, Hi.
  - unfold table_entry_ok. cbn [fst snd]. split; [|split; [|split]].
    + unfold token_ok. split; [|split].
      * apply forallb_forall. intros c Hi. destruct (letter_digit_facts c (Ha c Hi)) as (_&_&H1&H2&H3&H4&_). cbn. lia.
      * destruct (abbreviation name) as [|c r]; [congruence|]. cbn. apply Hsp. left; reflexivity.
      * destruct (abbreviation name) as [|c r]; [congruence|]. cbn [starts]. destruct (letter_digit_facts c (Ha c (or_introl eq_refl))) as (_&_&_&_&_&_&H5&_). apply N.eqb_neq. congruence.
    + unfold name_ok. split; [|discriminate]. apply forallb_forall. intros c Hi. destruct (Hc c Hi). cbn. lia.
    + intros c Hi. destruct (letter_digit_facts c (Ha c Hi)) as (H1&H2&_&_&_&_&_&H6). apply plain_char_facts in H2. split; tauto.
    + intros c Hi. split; [exact (Hl c Hi)|apply Hc, Hi].
Qed.

Lemma tiers_concat_In toks marks t : In t (concat (vote_tiers_of toks marks)) -> In t toks.
Proof.
  intro H. apply in_concat in H as (l&Hl&Ht). unfold vote_tiers_of in Hl. apply filter_In in Hl as (Hl&_). apply in_map_iff in Hl as (r&<-&_).
  apply options_at_In in Ht as (i&H1&_). apply nth_error_In in H1. exact H1.
Qed.
Lemma options_at_NoDup toks : forall marks r, NoDup toks -> NoDup (options_at toks marks r).
Proof.
  induction toks as [|a toks IH]; intros marks r H; [constructor|]. destruct marks as [|m marks]; [constructor|]. inversion H as [|x l Hx H' E]; subst.
  unfold options_at. cbn [combine filter snd]. pose proof (IH marks r H') as I. destruct (match m with Some x => (x =? r)%N | None => false end); [|exact I].
  cbn [map fst]. constructor; [|exact I]. intro Hin. apply Hx. fold (options_at toks marks r) in Hin. apply options_at_In in Hin as (i&H1&_). apply nth_error_In in H1. exact H1.
Qed.
Lemma tiers_concat_NoDup toks marks : NoDup toks -> NoDup (concat (vote_tiers_of toks marks)).
Proof.
  intro H. unfold vote_tiers_of. generalize (length toks) as n. generalize 1%nat as k.
  assert (G : forall n k, NoDup (concat (filter (fun t => match t with [] => false | _ => true end) (map (fun r => options_at toks marks (N.of_nat r)) (seq k n)))) /\
    forall t, In t (concat (filter (fun t => match t with [] => false | _ => true end) (map (fun r => options_at toks marks (N.of_nat r)) (seq k n)))) -> exists r, (k <= r)%nat /\ In t (options_at toks marks (N.of_nat r))).
  { induction n as [|n IH]; intro k; [split; [constructor|intros t []]|]. destruct (IH (S k)) as (I1&I2). cbn [seq map filter].
    destruct (options_at toks marks (N.of_nat k)) as [|a l] eqn:E.
    - split; [exact I1|]. intros t Ht. destruct (I2 t Ht) as (r&Hr&Hin). exists r. split; [lia|exact Hin].
    - cbn [concat]. split.
      + assert (Hd1 : NoDup (a :: l)) by (rewrite <- E; apply options_at_NoDup, H).
        assert (Hdis : forall t, In t (a :: l) -> ~ In t (concat (filter (fun t => match t with [] => false | _ => true end) (map (fun r => options_at toks marks (N.of_nat r)) (seq (S k) n))))).
        { intros t Ht Hin. destruct (I2 t Hin) as (r&Hr&Hin2). rewrite <- E in Ht. apply options_at_In in Ht as (i&H1&H2). apply options_at_In in Hin2 as (j&H3&H4).
          assert (i = j) by (apply (proj1 (NoDup_nth_error toks) H); [apply nth_error_Some; congruence|congruence]). subst j. rewrite H2 in H4. injection H4 as H4. apply Nat2N.inj in H4. lia. }
        clear E. revert Hd1 Hdis. generalize (a :: l) as l0. induction l0 as [|x l0 IHl]; intros Hd1 Hdis; [exact I1|]. cbn [app]. inversion Hd1; subst. constructor.
        * intro Hin. apply in_app_or in Hin as [Hin|Hin]; [contradiction|]. apply (Hdis x (or_introl eq_refl) Hin).
        * apply IHl; [assumption|]. intros t Ht. apply Hdis. right; exact Ht.
      + intros t Ht. apply in_app_or in Ht as [Ht|Ht]; [exists k; split; [lia|rewrite E; exact Ht]|]. destruct (I2 t Ht) as (r&Hr&Hin). exists r. split; [lia|exact Hin]. }
  intros k n. apply G.
Qed.
Lemma take_while_all p s : (forall c, In c s -> p c = true) -> take_while p s = s.
Proof. induction s as [|c s IH]; intro H; [reflexivity|]. cbn. rewrite (H c (or_introl eq_refl)), IH; [reflexivity|]. intros x Hx; apply H; right; exact Hx. Qed.

(** The metadata lines written by the converter. *)
Definition plain_meta (kx : str * str) : Prop := plain_entry (fst kx, JStr (snd kx)).
Lemma meta_tail_effect cw kx e : plain_meta kx ->
  j_metadata (step cw e (meta_entry kx)) = dset (fst kx) (JStr (snd kx)) (j_metadata e).
Proof.
  intro H. destruct kx as [k x]. unfold plain_meta in H. cbn [fst snd] in H. unfold plain_entry in H. cbn [fst snd] in H.
  destruct H as [(_&n&E)|(Hk&Hl&Hh&Hn1&Hn2&s&E&Hs&Hv)]; [discriminate|]. injection E as <-.
  assert (E : meta_entry (k, x) = meta_line true k [32%N] x) by (unfold meta_entry, meta_line; cbn [fst snd]; reflexivity). rewrite E.
  assert (Hv1 : forallb value_char x = true) by (apply forallb_forall; intros c Hc; rewrite forallb_forall in Hv; specialize (Hv c Hc); apply andb_prop in Hv as [Hv _]; exact Hv).
  unfold step. replace (norm cw (meta_line true k [32%N] x)) with (meta_line true k [32%N] x) by (symmetry; apply norm_first; reflexivity). unfold effect. assert (V : vote_of (meta_line true k [32%N] x) = None) by reflexivity. rewrite V. cbn [j_metadata]. unfold other_line.
  destruct (re_match CANDLINE_REGEX (before_hash (meta_line true k [32%N] x))) as [[g s']|] eqn:Ec.
  { apply candline_first in Ec as [r Ec]. discriminate. } clear Ec V E.
  rewrite before_hash_id.
  2:{ unfold meta_line. cbn [app]. intros [Hin|[Hin|Hin]]; try discriminate. apply in_app_or in Hin as [Hin|Hin]; [exact (Hh Hin)|].
      destruct Hin as [Hin|[Hin|[Hin|[Hin|Hin]]]]; try discriminate. apply in_app_or in Hin as [Hin|Hin].
      - rewrite forallb_forall in Hv1. specialize (Hv1 _ Hin). vm_compute in Hv1. discriminate.
      - destruct Hin as [Hin|[Hin|[]]]; discriminate. }
  rewrite metadata_match; [| | |reflexivity].
  - unfold process_metadata. cbn [j_metadata group Nat.eqb]. destruct (str_eqb_spec k k_ballotcount) as [->|_]; [congruence|]. reflexivity.
  - destruct Hk as (K1&K2&_). split; [exact K1|]. split; [exact K2|discriminate].
  - split; [exact Hs|]. split; [exact Hv1|discriminate].
Qed.
Lemma meta_tail_fold cw md : forall e, (forall kx, In kx md -> plain_meta kx) -> NoDup (map fst md) ->
  forall k, dget k (j_metadata (fold_left (step cw) (map meta_entry md) e)) = match dget k md with Some x => Some (JStr x) | None => dget k (j_metadata e) end.
Proof.
  induction md as [|[k0 x0] md IH]; intros e H Hn k; [reflexivity|]. cbn [map fold_left]. cbn [map fst] in Hn. inversion Hn as [|? ? Hni Hn']; subst.
  rewrite IH by (auto; intros kx Hkx; apply H; right; exact Hkx). rewrite meta_tail_effect by (apply H; left; reflexivity). cbn [fst snd dget].
  destruct (str_eqb_spec k k0) as [->|n].
  - rewrite (proj2 (dget_None k0 md) Hni). apply dget_dset_same.
  - destruct (dget k md); [reflexivity|]. apply dget_dset_other. exact n.
Qed.

(** Converting a Debian tally sheet and reading the result as ABIF gives the options as candidate table
    and one ballot per vote line, with the voter's id and the tiers of C46_ranks.  The options' names
    are free of line boundaries, brackets ] and #, and have distinct, non-empty abbreviations. *)
Theorem C46_end_to_end : forall sha1 ls metadata cleanws add_ratings, (forall l, In l ls -> deb_ok l) ->
  (forall v, In v (deb_votes ls) -> (length (fst v) <= length (deb_names ls))%nat) -> deb_votes ls <> [] ->
  (forall name, In name (deb_names ls) -> nota_free name /\ abbreviation name <> [] /\ forall c, In c name -> c <> 93%N /\ c <> 35%N) ->
  NoDup (map abbreviation (deb_names ls)) -> (forall k x, In (k, x) metadata -> one_line k /\ one_line x) ->
  exists text m vs, convert_debtally_to_abif sha1 (deb_sheet ls) metadata = Ok text /\ convert_abif_to_jabmod text cleanws add_ratings false = Ok m /\
    j_candidates m = map (fun name => (abbreviation name, name)) (deb_names ls) /\
    Permutation (j_votelines m) vs /\
    Forall2 (fun dv v => votes_tiers 1 (vote_tiers_of (map abbreviation (deb_names ls)) (fst dv)) v /\ v_voterid v = Some (snd dv)) (deb_votes ls) vs /\
    dget k_ballotcount (j_metadata m) = Some (JInt (Z.of_nat (length (deb_votes ls)))) /\
    (add_ratings = false -> forall v c p, In v vs -> dget c (v_prefs v) = Some p -> p_rating p = None) /\
    (add_ratings = false -> (forall kx, In kx metadata -> plain_meta kx) -> NoDup (map fst metadata) ->
       forall k, k <> k_ballotcount -> dget k (j_metadata m) = option_map JStr (dget k metadata)).
Proof.
  intros sha1 ls md cw ar H Hlen Hne Hnames Hd Hmd.
  set (toks := map abbreviation (deb_names ls)).
  assert (Et : short_option_names sha1 [] (deb_names ls) = Ok toks).
  { apply C47_distinct_abbreviations; [|exact Hd]. intros name Hin. split; [apply (deb_names_one_line ls); auto|apply Hnames, Hin]. }
  set (xs := map (fun v => Imported 1 (vote_tiers_of toks (fst v)) (u "  ") (u "##VID:" ++ snd v)) (deb_votes ls)).
  set (table := map (fun name => (abbreviation name, name)) (deb_names ls)).
  assert (Etab : map fst table = toks) by (unfold table, toks; rewrite map_map; reflexivity).
  assert (Hxs : forall x, In x xs -> imported_ok x /\ incl (concat (i_tiers x)) (map fst table)).
  { intros x Hx. unfold xs in Hx. apply in_map_iff in Hx as (v&<-&Hv). destruct (vote_ok_marks ls v H Hv) as (_&Hid&Hidc). split.
    - unfold imported_ok. cbn [i_pad i_com i_tiers]. split; [split; [reflexivity|apply printable_line; reflexivity]|]. split; [|split; [|split]].
      + right. split; [reflexivity|]. apply one_line_app; [apply printable_line; reflexivity|]. intros c Hc. destruct (is_linebreak c) eqn:E; [|reflexivity]. apply linebreak_space in E. rewrite (Hidc c Hc) in E. discriminate.
      + intros t Ht. unfold vote_tiers_of in Ht. apply filter_In in Ht as (_&Ht). destruct t; [discriminate|discriminate].
      + intros c Hc. apply tiers_concat_In in Hc. unfold toks in Hc. apply in_map_iff in Hc as (name&<-&Hin). destruct (Hnames name Hin) as (_&H1&H2). apply abbreviation_ok; [exact H1|exact H2|apply (deb_names_one_line ls); auto].
      + apply tiers_concat_NoDup, Hd.
    - cbn [i_tiers]. intros c Hc. rewrite Etab. apply tiers_concat_In in Hc. exact Hc. }
  set (mtail := fun kv : str * str => ([34%N] ++ fst kv ++ [34%N] ++ u ": " ++ [34%N] ++ snd kv ++ [34%N] ++ u "}" : str)).
  destruct (import_read (map mtail md) table xs cw ar) as (m&ws&vs&E&Ec&Ev&F&Evw&Fw&Emd).
  - intros s Hs. apply in_map_iff in Hs as ((k&x)&<-&Hin). destruct (Hmd k x Hin) as (H1&H2). unfold mtail. cbn [fst snd].
    repeat apply one_line_app; try assumption; apply printable_line; reflexivity.
  - intros tn Htn. unfold table in Htn. apply in_map_iff in Htn as (name&<-&Hin). destruct (Hnames name Hin) as (_&H1&H2). apply abbreviation_ok; [exact H1|exact H2|apply (deb_names_one_line ls); auto].
  - rewrite Etab. exact Hd.
  - intros x Hx. apply (Hxs x Hx).
  - unfold xs. destruct (deb_votes ls); [congruence|discriminate].
  - intros x Hx. apply (Hxs x Hx).
  - exists (unlines (import_lines (map mtail md) table xs)), m, vs. split; [|split; [exact E|split; [exact Ec|]]].
    + rewrite (C46_votes_preserved sha1 ls md toks H Hlen Et). do 2 f_equal. unfold import_lines. rewrite map_map. apply (f_equal2 (@app str)); [reflexivity|]. apply (f_equal2 (@app str)); [|apply (f_equal2 (@app str)); [reflexivity|]].
      * unfold table, toks. rewrite combine_map_l. reflexivity.
      * unfold xs. rewrite map_map. apply map_ext. intros [marks id]. unfold imported_line, vote_line. cbn [i_qty i_tiers i_pad i_com fst snd]. reflexivity.
    + assert (P : Permutation (j_votelines m) vs) by (rewrite Ev; apply sort_desc_perm). split; [exact P|].
      assert (F' : Forall2 (fun dv v => votes_tiers 1 (vote_tiers_of toks (fst dv)) v /\ v_voterid v = Some (snd dv)) (deb_votes ls) vs).
      { assert (F2 : Forall2 (fun x v => votes_tiers (i_qty x) (i_tiers x) v /\ v_voterid v = voter_id (Some (i_com x))) xs vs).
        { assert (Hcom : forall x, In x xs -> i_com x <> []) by (intros x Hx; unfold xs in Hx; apply in_map_iff in Hx as (v&<-&_); discriminate).
          revert Fw F Hcom. clear. intros Fw F. revert vs F. induction Fw as [|x w xs ws ((V1&V2&V3)&Vc&Vv&_) Fw IH]; intros vs F Hcom; inversion F as [|w' v ws' vs' S F' E1 E2]; subst; constructor.
          - destruct S as (S1&_&S3&S4&S5&S6&_). split; [split; [congruence|split; [intro c; rewrite S6; apply V2|congruence]]|]. rewrite S4, Vv, Vc. pose proof (Hcom x (or_introl eq_refl)) as Hx. destruct (i_com x); [congruence|reflexivity].
          - apply IH; [exact F'|]. intros y Hy. apply Hcom. right; exact Hy. }
        apply (Forall2_map_l (fun v => Imported 1 (vote_tiers_of toks (fst v)) (u "  ") (u "##VID:" ++ snd v)) (fun x v => votes_tiers (i_qty x) (i_tiers x) v /\ v_voterid v = voter_id (Some (i_com x)))) in F2.
        assert (Hids : forall dv, In dv (deb_votes ls) -> voter_id (Some (u "##VID:" ++ snd dv)) = Some (snd dv)).
        { intros dv Hdv. destruct (vote_ok_marks ls dv H Hdv) as (_&Hid&Hidc). unfold voter_id. rewrite strip_prefix_app. rewrite take_while_all by (intros c Hc; rewrite (Hidc c Hc); reflexivity). destruct (snd dv); [congruence|reflexivity]. }
        revert F2 Hids. clear. intros F2. induction F2 as [|dv v l l' (V&Vi) F2 IH]; intro Hids; constructor.
        - cbn [i_qty i_tiers i_com] in V, Vi. split; [exact V|]. rewrite Vi. apply Hids. left; reflexivity.
        - apply IH. intros y Hy. apply Hids. right; exact Hy. }
      split; [exact F'|]. split; [|split; [intro Ear; rewrite (Evw Ear); intros v c p Hv Hg; clear - Fw Hv Hg; induction Fw as [|x w xs0 ws0 (_&_&_&Hr) Fw IH]; [destruct Hv|destruct Hv as [<-|Hv]; [exact (Hr c p Hg)|exact (IH Hv)]]|]].
      2:{ intros Ear Hp Hnd k Hk. rewrite (Emd Ear k Hk). replace (map brace (map mtail md)) with (map meta_entry md) by (rewrite map_map; reflexivity).
          rewrite (meta_tail_fold cw md emptyish Hp Hnd k). destruct (dget k md); [reflexivity|]. unfold emptyish. cbn [j_metadata dget option_map]. destruct (str_eqb_spec k k_ballotcount); [congruence|reflexivity]. }
      rewrite (C28_ballotcount _ _ _ _ _ E). do 2 f_equal. rewrite (zsum_perm _ _ (Permutation_map v_qty P)).
      clear - F'. induction F' as [|r v l l' ((V&_)&_) F' IH]; [reflexivity|]. cbn [map zsum length]. rewrite V, IH. lia.
Qed.
Print Assumptions C46_end_to_end.

(** A finding: the part of a name before its last colon-and-blank is lost. *)
Theorem C46_colon_refuted : ~ forall sha1 ls, (forall l, In l ls -> match l with
    | DebOption indent num desc pad name => blank indent /\ one_line desc /\ blank pad /\ pad <> [] /\ one_line name /\ starts is_space name = false
    | _ => deb_ok l end) ->
  forall name text, In name (deb_names ls) -> convert_debtally_to_abif sha1 (deb_sheet ls) [] = Ok text -> exists a b, text = a ++ name ++ b.
Proof.
  intro H. set (nm := u "Amend: keep ii").
  destruct (H (fun _ => []) [DebOption (u " ") 1 [] (u " ") nm] ltac:(intros l [<-|[]]; repeat split; try apply blank_sp; try apply printable_line; try reflexivity; try discriminate) nm (unlines [u "=keepii:[keep ii]"; rule_line]) (or_introl eq_refl)) as (a&b0&E).
  { vm_compute. reflexivity. }
  assert (Hin : In 109%N (unlines [u "=keepii:[keep ii]"; rule_line])) by (rewrite E; apply in_or_app; right; apply in_or_app; left; right; left; reflexivity).
  vm_compute in Hin. intuition discriminate.
Qed.
Print Assumptions C46_colon_refuted.

Definition deb_demo : list deb_line :=
  [ DebOther (u "Tally sheet for the vote"); DebOption (u "  ") 1 [] (u " ") (u "Alice A."); DebOption (u "  ") 2 (u "..") (u "  ") (u "Bob"); DebOption (u "  ") 3 [] (u " ") (u "None of the above");
    DebOther []; DebVote [Some 2; Some 1; None]%N (u "    ") (u "abc123") (u " somebody"); DebVote [None; Some 3; Some 3]%N (u " ") (u "x#1") [] ].
Lemma nowhere_dec w s : w <> [] -> forallb (fun t => match strip_prefix w t with Some _ => false | None => true end) (suffixes s) = true -> nowhere w s.
Proof.
  intros Hw H a b0 E. rewrite forallb_forall in H. assert (Hin : In (w ++ b0) (suffixes s)) by (rewrite E; apply suffixes_In). specialize (H _ Hin). rewrite strip_prefix_app in H. discriminate.
Qed.
Lemma no_colon_dec s : forallb (fun t => match t with 58%N :: c :: _ => negb (is_space c) | _ => true end) (suffixes s) = true -> no_colon_space s.
Proof.
  intros H a c b0 E. rewrite forallb_forall in H. assert (Hin : In (58%N :: c :: b0) (suffixes s)) by (rewrite E; apply suffixes_In). specialize (H _ Hin). cbn in H. destruct (is_space c); [discriminate|reflexivity].
Qed.
Lemma blank_dec s : forallb (N.eqb 32) s = true -> blank s.
Proof. intro H. rewrite forallb_forall in H. split; [apply forallb_forall|]; intros c Hc; specialize (H c Hc); apply N.eqb_eq in H; subst c; reflexivity. Qed.
Ltac deb_side := first [ apply blank_dec; reflexivity | apply printable_line; vm_compute; reflexivity | apply no_colon_dec; vm_compute; reflexivity
                       | apply nowhere_dec; [discriminate|vm_compute; reflexivity] | discriminate | reflexivity ].
Lemma deb_demo_ok : forall l, In l deb_demo -> deb_ok l.
Proof.
  intros l Hl. repeat destruct Hl as [<-|Hl]; try destruct Hl; cbn [deb_ok].
  - repeat split; deb_side.
  - repeat apply conj; try deb_side. 
  - repeat apply conj; try deb_side.
  - repeat apply conj; try deb_side.
  - repeat split; deb_side.
  - repeat apply conj; try deb_side.
    + intros r Hr. cbn in Hr. repeat destruct Hr as [E|Hr]; try destruct Hr; try discriminate; injection E as <-; lia.
    + intros c Hc. cbn in Hc. repeat destruct Hc as [<-|Hc]; try destruct Hc; reflexivity.
  - repeat apply conj; try deb_side.
    + intros r Hr. cbn in Hr. repeat destruct Hr as [E|Hr]; try destruct Hr; try discriminate; injection E as <-; lia.
    + intros c Hc. cbn in Hc. repeat destruct Hc as [<-|Hc]; try destruct Hc; reflexivity.
    + intro E. destruct (E eq_refl).
Qed.
Lemma deb_demo_names : (forall name, In name (deb_names deb_demo) -> nota_free name /\ abbreviation name <> [] /\ forall c, In c name -> c <> 93%N /\ c <> 35%N) /\
  NoDup (map abbreviation (deb_names deb_demo)).
Proof.
  split; [|vm_compute; repeat constructor; cbn; intuition discriminate].
  intros name Hn. split; [|split].
  - repeat destruct Hn as [<-|Hn]; try destruct Hn; try (apply nota_free_dec; vm_compute; reflexivity). left; reflexivity.
  - repeat destruct Hn as [<-|Hn]; try destruct Hn; vm_compute; discriminate.
  - intros c Hc. assert (G : forallb (forallb (fun c => negb (N.eqb c 93) && negb (N.eqb c 35))) (deb_names deb_demo) = true) by reflexivity.
    rewrite forallb_forall in G. specialize (G name Hn). rewrite forallb_forall in G. specialize (G c Hc). lia.
Qed.
Example C46_nonvacuous : exists text m, convert_debtally_to_abif (fun _ => []) (deb_sheet deb_demo) [(u "title", u "Demo")] = Ok text /\
  text = unlines [ u "{" ++ [34%N] ++ u "title" ++ [34%N] ++ u ": " ++ [34%N] ++ u "Demo" ++ [34%N] ++ u "}"; u "=AliceA:[Alice A.]"; u "=Bob:[Bob]"; u "=NOTA:[None of the above]"; u "# ---------------";
                   u "1:Bob>AliceA  ##VID:abc123"; u "1:Bob=NOTA  ##VID:x#1" ] /\
  convert_abif_to_jabmod text false false false = Ok m /\ dget k_ballotcount (j_metadata m) = Some (JInt 2) /\
  map (fun v => (v_voterid v, rank_on v (u "AliceA"), rank_on v (u "Bob"))) (j_votelines m) = [(Some (u "abc123"), Some 2, Some 1); (Some (u "x#1"), None, Some 1)].
Proof. eexists. eexists. split; [vm_compute; reflexivity|]. split; [vm_compute; reflexivity|]. split; [vm_compute; reflexivity|]. vm_compute. split; reflexivity. Qed.
Example C46_hyps_nonvacuous : exists text m vs, convert_debtally_to_abif (fun _ => []) (deb_sheet deb_demo) [] = Ok text /\ convert_abif_to_jabmod text true true false = Ok m /\
  Permutation (j_votelines m) vs /\ length vs = 2%nat.
Proof.
  destruct deb_demo_names as (H1&H2). destruct (C46_end_to_end (fun _ => []) deb_demo [] true true deb_demo_ok) as (text&m&vs&E1&E2&_&P&F&_).
  - intros v [<-|[<-|[]]]; vm_compute; lia.
  - discriminate.
  - exact H1.
  - exact H2.
  - intros k x [].
  - exists text, m, vs. repeat split; auto. assert (G : forall X Y (R : X -> Y -> Prop) l l', Forall2 R l l' -> length l = length l') by (induction 1; cbn; congruence). rewrite <- (G _ _ _ _ _ F). reflexivity.
Qed.
Example C46_undeclared_nonvacuous : convert_debtally_to_abif (fun _ => []) (deb_sheet (deb_demo ++ [DebVote [Some 1; Some 2; None; Some 3]%N (u " ") (u "z") []])) [] = Err IndexError.
Proof. vm_compute. reflexivity. Qed.
