(** * PropsReport: C72, the text reports (irvtally.py get_IRV_report, scorestar.py score_report and STAR_report) *)

From Coq Require Import Lia Permutation Sorted.
From Verif Require Import PyBase PyFacts Jabmod PairwiseModel Spec PairwiseFacts ScoreModel ScoreFacts PropsPairwise PropsScore IrvModel IrvFacts IrvStrict IrvTrace IrvCriteria PropsIrv ParserSpec.
Local Open Scope Z_scope.

(** ** Specification *)
(** The names in alphabetical order. *)
Definition alphabetical (sorted l : list str) : Prop := Permutation sorted l /\ StronglySorted (fun a b => str_leb a b = true) sorted.
(** The nine kinds of lines of a round: [starting] and [out] are the candidates at the start and those eliminated. *)
Definition round_lines (number : N) (starting out : list str) (startingqty exhausted overvotes counted : Z) (counts : dict Z) : list str :=
  [ []; u "Round " ++ n2s number ++ u ":";
    u "  Starting cands: " ++ join (u ", ") starting;
    u "  Total starting votes: " ++ z2s startingqty;
    u "  Exhausted votes: " ++ z2s exhausted;
    u "  Overvotes: " ++ z2s overvotes;
    u "  Total counted votes: " ++ z2s counted;
    u "  Votes by candidate:" ] ++
  map (fun cv => u "    " ++ fst cv ++ u ": " ++ z2s (snd cv)) counts ++
  [ u "  Eliminated this round: " ++ join (u ", ") out ].

(** ** IRV *)
Lemma sort_str_alpha l : alphabetical (sort_str l) l.
Proof. split; [apply sort_by_perm|]. apply sort_by_sorted; intros; [apply str_leb_total|eapply str_leb_trans; eassumption]. Qed.
Lemma unlines_app a b : unlines (a ++ b) = unlines a ++ unlines b.
Proof. unfold unlines. apply flat_map_app. Qed.
Lemma counts_text (rc : dict Z) : concat (map (fun cv => u "    " ++ fst cv ++ u ": " ++ z2s (snd cv) ++ IrvModel.nl) rc) = unlines (map (fun cv => u "    " ++ fst cv ++ u ": " ++ z2s (snd cv)) rc).
Proof. unfold unlines. induction rc as [|[c v] rc IH]; [reflexivity|]. cbn [map concat flat_map fst snd]. rewrite IH, <- !app_assoc. reflexivity. Qed.
Lemma round_text i rc rm : irv_round_text i rc rm =
  unlines (round_lines (N.of_nat (S i)) (sort_str (im_starting_cands rm)) (sort_str (im_eliminated rm)) (im_startingqty rm) (im_exhaustedqty rm) (im_overvoteqty rm) (im_countedqty rm) rc).
Proof.
  unfold irv_round_text, round_lines. rewrite counts_text, !unlines_app. unfold unlines at 2 4. cbn [flat_map]. rewrite <- !app_assoc. reflexivity.
Qed.
Lemma rounds_text rs : forall i ms, length ms = length rs -> exists ls, irv_rounds_text i rs ms = Ok (unlines (concat ls)) /\ length ls = length rs /\
  forall k rc rm, nth_error rs k = Some rc -> nth_error ms k = Some rm ->
    nth_error ls k = Some (round_lines (N.of_nat (S (i + k))) (sort_str (im_starting_cands rm)) (sort_str (im_eliminated rm)) (im_startingqty rm) (im_exhaustedqty rm) (im_overvoteqty rm) (im_countedqty rm) rc).
Proof.
  induction rs as [|rc rs IH]; intros i ms L; destruct ms as [|rm ms]; cbn [length] in L; try discriminate.
  - exists []. split; [reflexivity|]. split; [reflexivity|]. intros [|k] ? ? H; discriminate H.
  - destruct (IH (S i) ms) as (ls&E&Ll&H); [lia|]. eexists (_ :: ls). cbn [irv_rounds_text]. rewrite E. cbn [bind]. split; [|split].
    + rewrite round_text. cbn [concat]. rewrite unlines_app. reflexivity.
    + cbn [length]. lia.
    + intros [|k] rc' rm' H1 H2.
      * cbn [nth_error] in *. injection H1 as <-. injection H2 as <-. rewrite Nat.add_0_r. reflexivity.
      * cbn [nth_error] in *. rewrite (H k rc' rm' H1 H2). rewrite Nat.add_succ_r. reflexivity.
Qed.

(** The report has the lines of the rounds, one round after the other, with the figures of the result, and a last line with
    the winner or, in alphabetical order, the winners. *)
Theorem C72_irv_report : forall o m d, schedule o -> irv_election m -> IRV_dict_from_jabmod o m = Ok d ->
  exists rounds last, get_IRV_report d = Ok (unlines (concat rounds ++ [last])) /\ length rounds = length (ir_rounds d) /\
    (forall i rc rm, round d i rc rm -> exists starting out, alphabetical starting (im_starting_cands rm) /\ alphabetical out (im_eliminated rm) /\
       nth_error rounds i = Some (round_lines (N.of_nat (S i)) starting out (im_startingqty rm) (im_exhaustedqty rm) (im_overvoteqty rm) (im_countedqty rm) rc)) /\
    ((exists w, ir_winner d = [w] /\ last = u "The IRV winner is " ++ w) \/
     (2 <= length (ir_winner d))%nat /\ exists ws, alphabetical ws (ir_winner d) /\ last = u "The IRV winners are " ++ join (u " and ") ws).
Proof.
  intros o m d Ho Hm E. destruct (irv_run o m Ho Hm) as (d'&E'&T&_). rewrite E in E'. apply ok_inj in E'. subst d'.
  destruct (trace_lengths _ _ _ _ _ _ _ _ T) as [L _]. destruct (trace_winner _ _ _ _ _ _ _ _ Ho T) as (W1&_&_).
  assert (Lm : length (ir_roundmeta d) = length (ir_rounds d)) by lia.
  destruct (rounds_text (ir_rounds d) 0 (ir_roundmeta d) Lm) as (ls&Et&Ll&H). unfold get_IRV_report. rewrite Et. cbn [bind].
  assert (G : forall i rc rm, round d i rc rm -> exists starting out, alphabetical starting (im_starting_cands rm) /\ alphabetical out (im_eliminated rm) /\
       nth_error ls i = Some (round_lines (N.of_nat (S i)) starting out (im_startingqty rm) (im_exhaustedqty rm) (im_overvoteqty rm) (im_countedqty rm) rc)).
  { intros i rc rm (H1&H2). exists (sort_str (im_starting_cands rm)), (sort_str (im_eliminated rm)). split; [apply sort_str_alpha|]. split; [apply sort_str_alpha|]. apply (H i rc rm H1 H2). }
  destruct (Nat.ltb_spec 1 (length (ir_winner d))) as [L1|L1].
  - exists ls, (u "The IRV winners are " ++ join (u " and ") (sort_str (ir_winner d))). split; [rewrite unlines_app; unfold unlines at 3; cbn [flat_map]; rewrite app_nil_r, <- !app_assoc; reflexivity|].
    split; [exact Ll|]. split; [exact G|]. right. split; [exact L1|]. exists (sort_str (ir_winner d)). split; [apply sort_str_alpha|reflexivity].
  - destruct (ir_winner d) as [|w [|w' r]] eqn:Ew; cbn [length] in L1; [congruence| |lia]. cbn [nth_error of_option bind].
    exists ls, (u "The IRV winner is " ++ w). split; [rewrite unlines_app; unfold unlines at 3; cbn [flat_map]; rewrite app_nil_r, <- !app_assoc; reflexivity|].
    split; [exact Ll|]. split; [exact G|]. left. exists w. split; reflexivity.
Qed.
Print Assumptions C72_irv_report.

(** Without equal ranks, the line of a candidate in a round shows the ballots on which he is the first of those still in, and the
    line of the exhausted votes the ballots that list none of them. *)
Theorem C72_irv_figures : forall o m d, schedule o -> irv_election m -> strict_election m -> IRV_dict_from_jabmod o m = Ok d ->
  exists rounds last, get_IRV_report d = Ok (unlines (concat rounds ++ [last])) /\
    forall i rc rm, round d i rc rm -> exists ls, nth_error rounds i = Some ls /\
      (forall c, In c (im_starting_cands rm) -> In (u "    " ++ c ++ u ": " ++ z2s (ballots_where (fun l => top_choice (im_starting_cands rm) l c) (j_votelines m))) ls) /\
      In (u "  Exhausted votes: " ++ z2s (ballots_where (lists_nobody (im_starting_cands rm)) (j_votelines m))) ls /\
      In (u "  Overvotes: 0") ls /\ In (u "  Total starting votes: " ++ z2s (total_ballots m)) ls.
Proof.
  intros o m d Ho Hm Hs E. destruct (C72_irv_report o m d Ho Hm E) as (rounds&last&Er&_&H&_). exists rounds, last. split; [exact Er|]. intros i rc rm Hr.
  destruct (H i rc rm Hr) as (st&out&_&_&En). eexists. split; [exact En|]. destruct (C22_irv_tallies_are_top_choices o m d i rc rm Ho Hm Hs E Hr) as (T1&T2&T3). unfold round_lines.
  split; [|split; [|split]].
  - intros c Hc. apply in_or_app. right. apply in_or_app. left. apply in_map_iff. exists (c, ballots_where (fun l => top_choice (im_starting_cands rm) l c) (j_votelines m)). split; [reflexivity|]. apply dget_In, T1, Hc.
  - rewrite <- T2. cbn [app In]. tauto.
  - rewrite T3. cbn [app In]. do 5 right. left. reflexivity.
  - assert (Q : im_startingqty rm = total_ballots m).
    { clear - Ho Hm Hs E Hr. revert rc rm Hr. induction i as [|i IH]; intros rc rm Hr.
      - destruct (C17_irv_conserves_ballots o m d 0 rc rm Ho Hm E Hr) as (_&_&H0&_). apply H0. reflexivity.
      - assert (exists rc0 rm0, round d i rc0 rm0) as (rc0&rm0&Hr0).
        { destruct Hr as (R1&R2). assert (L1 : (i < length (ir_rounds d))%nat) by (apply nth_lt in R1; lia). assert (L2 : (i < length (ir_roundmeta d))%nat) by (apply nth_lt in R2; lia).
          destruct (nth_error (ir_rounds d) i) as [rc0|] eqn:E1; [|apply nth_error_None in E1; lia]. destruct (nth_error (ir_roundmeta d) i) as [rm0|] eqn:E2; [|apply nth_error_None in E2; lia]. exists rc0, rm0. split; assumption. }
        destruct (C17_irv_conserves_ballots o m d i rc0 rm0 Ho Hm E Hr0) as (_&Hb&_&Hn). rewrite (Hn rc rm Hr), Hb, (IH rc0 rm0 Hr0). destruct (C22_irv_tallies_are_top_choices o m d i rc0 rm0 Ho Hm Hs E Hr0) as (_&_&H0). rewrite H0. lia. }
    rewrite Q. cbn [app In]. tauto.
Qed.
Print Assumptions C72_irv_figures.

(** ** Score and STAR *)
(** The candidates by falling total score, equals in the order of the candidate list. *)
Definition by_score (m : jabmod) (order : list str) : Prop :=
  Permutation order (cands m) /\ StronglySorted (fun x y => total_score m y <= total_score m x) order /\
  forall z, filter (fun c => total_score m c =? z) order = filter (fun c => total_score m c =? z) (cands m).
Definition score_line (m : jabmod) (unit : string) (c : str) (line : str) : Prop :=
  exists name, dget c (j_candidates m) = Some name /\
    line = u "- " ++ z2s (total_score m c) ++ u " " ++ u unit ++ u " (from " ++ z2s (supporters m c) ++ u " voters) -- " ++ name.

Lemma order_by_score m : scorable m -> by_score m (score_order m).
Proof.
  intro H. destruct (C11_ranklist (Jabmod (dset k_ballotcount (JInt 0) (j_metadata m)) (j_candidates m) (j_votelines m)) (ScoreRes (dmap (cands m) (final_info m)) (score_order m) (zsum (map (total_score m) (cands m))) (JInt 0))) as (P&S&F&_).
  - exact H.
  - refine (enhanced_ok (Jabmod (dset k_ballotcount (JInt 0) (j_metadata m)) (j_candidates m) (j_votelines m)) (JInt 0) H _). apply dget_dset_same.
  - exact (conj P (conj S F)).
Qed.
Lemma bullet_lines m (unit : string) : scorable m -> forall order, incl order (cands m) ->
  exists ls, Forall2 (score_line m unit) order ls /\
    mapM (fun c => bind (dgetE c (dmap (cands m) (final_info m))) (fun si => Ok (score_bullet (u " " ++ u unit) si))) order = Ok (map (fun l => l ++ [10%N]) ls).
Proof.
  intros H order. induction order as [|c order IH]; intro Hi; [exists []; split; [constructor|reflexivity]|].
  destruct IH as (ls&F&E); [intros x Hx; apply Hi; right; exact Hx|]. assert (Hc : In c (cands m)) by (apply Hi; left; reflexivity).
  assert (Hn : exists name, dget c (j_candidates m) = Some name) by (apply dget_Some_In; exact Hc). destruct Hn as (name&Hn).
  exists ((u "- " ++ z2s (total_score m c) ++ u " " ++ u unit ++ u " (from " ++ z2s (supporters m c) ++ u " voters) -- " ++ name) :: ls). split; [constructor; [exists name; auto|exact F]|].
  cbn [mapM]. unfold dgetE at 1. rewrite dget_dmap, (proj2 (memb_In _ _) Hc). cbn [of_option bind]. rewrite E. cbn [bind map]. do 2 f_equal.
  unfold score_bullet, final_info. cbn [si_score si_votercount si_candname]. unfold cand_name. rewrite Hn. rewrite <- !app_assoc. reflexivity.
Qed.
Lemma concat_lines ls : concat (map (fun l : str => l ++ [10%N]) ls) = unlines ls.
Proof. unfold unlines. induction ls as [|l ls IH]; [reflexivity|]. cbn [map concat flat_map]. rewrite IH. reflexivity. Qed.

(** The score report: one line per candidate, by falling score, then the voter count and the first candidate's name, who
    has the highest score. *)
Theorem C72_score_report : forall m bc, scorable m -> dget k_ballotcount (j_metadata m) = Some (JInt bc) -> cands m <> [] ->
  exists order ls w name, by_score m order /\ Forall2 (score_line m "points") order ls /\
    score_report m = Ok (unlines (ls ++ [u "Voter count: " ++ z2s bc; u "Score Winner: " ++ name])) /\
    hd_error order = Some w /\ dget w (j_candidates m) = Some name /\ forall c, In c (cands m) -> total_score m c <= total_score m w.
Proof.
  intros m bc H Hb Hne. pose proof (order_by_score m H) as (P&S&F). destruct (score_order m) as [|w r] eqn:Eo; [apply Permutation_nil in P; congruence|].
  destruct (bullet_lines m "points" H (w :: r)) as (ls&Fl&El); [intros x Hx; apply (Permutation_in _ P Hx)|].
  assert (Hw : In w (cands m)) by (apply (Permutation_in _ P); left; reflexivity). destruct (proj2 (dget_Some_In w (j_candidates m)) Hw) as (name&Hn).
  exists (w :: r), ls, w, name. split; [exact (conj P (conj S F))|]. split; [exact Fl|]. split; [|split; [reflexivity|split; [exact Hn|]]].
  - unfold score_report. unfold dgetE at 1. rewrite Hb. cbn [of_option bind]. rewrite (enhanced_ok m (JInt bc) H Hb). cbn [bind sr_ranklist sr_scores]. rewrite Eo.
    change (u " points") with (u " " ++ u "points"). rewrite El. cbn [bind nth_error of_option]. unfold dgetE at 1. rewrite dget_dmap, (proj2 (memb_In _ _) Hw). cbn [of_option bind json_fstr final_info si_candname].
    rewrite concat_lines, unlines_app. unfold unlines at 3. cbn [flat_map]. unfold cand_name. rewrite Hn, app_nil_r, <- !app_assoc. reflexivity.
  - intros c Hc. apply (Permutation_in _ (Permutation_sym P)) in Hc. destruct Hc as [<-|Hc]; [lia|]. inversion S as [|? ? _ Fa]; subst. rewrite Forall_forall in Fa. apply Fa, Hc.
Qed.
Print Assumptions C72_score_report.

(** The STAR report: the same with stars, the two first as finalists, on how many ballots each is preferred to the other,
    the rest as abstentions, and the one preferred on more ballots as the winner. *)
Theorem C72_star_report : forall m bc, scorable m -> tallyable m -> dget k_ballotcount (j_metadata m) = Some (JInt bc) -> (2 <= length (cands m))%nat ->
  exists f1 f2 rest ls n1 n2 winner, by_score m (f1 :: f2 :: rest) /\ Forall2 (score_line m "stars") (f1 :: f2 :: rest) ls /\
    dget f1 (j_candidates m) = Some n1 /\ dget f2 (j_candidates m) = Some n2 /\
    STAR_report m = Ok (unlines ([u "Total voters: " ++ z2s bc; u "Scores:"] ++ ls ++
      [ u "Finalists: ";
        u "- " ++ n1 ++ u " preferred by " ++ z2s (votes_over m f1 f2) ++ u " of " ++ z2s bc ++ u " voters";
        u "- " ++ n2 ++ u " preferred by " ++ z2s (votes_over m f2 f1) ++ u " of " ++ z2s bc ++ u " voters";
        u "- " ++ z2s (bc - votes_over m f1 f2 - votes_over m f2 f1) ++ u " abstentions";
        u "STAR Winner: " ++ winner ])) /\
    (votes_over m f1 f2 > votes_over m f2 f1 -> winner = n1) /\ (votes_over m f2 f1 > votes_over m f1 f2 -> winner = n2) /\
    (votes_over m f1 f2 = votes_over m f2 f1 -> winner = u "tie " ++ n1 ++ u " and " ++ n2).
Proof.
  intros m bc H Ht Hb Hl. pose proof (order_by_score m H) as (P&S&F). destruct (score_order m) as [|f1 [|f2 rest]] eqn:Eo; [apply Permutation_length in P; cbn [length] in P; lia|apply Permutation_length in P; cbn [length] in P; lia|].
  destruct (bullet_lines m "stars" H (f1 :: f2 :: rest)) as (ls&Fl&El); [intros x Hx; apply (Permutation_in _ P Hx)|].
  assert (H1 : In f1 (cands m)) by (apply (Permutation_in _ P); left; reflexivity). destruct (proj2 (dget_Some_In f1 (j_candidates m)) H1) as (n1&Hn1).
  assert (H2 : In f2 (cands m)) by (apply (Permutation_in _ P); right; left; reflexivity). destruct (proj2 (dget_Some_In f2 (j_candidates m)) H2) as (n2&Hn2).
  exists f1, f2, rest, ls, n1, n2, (if votes_over m f1 f2 >? votes_over m f2 f1 then n1 else if votes_over m f2 f1 >? votes_over m f1 f2 then n2 else u "tie " ++ n1 ++ u " and " ++ n2).
  split; [exact (conj P (conj S F))|]. split; [exact Fl|]. split; [exact Hn1|]. split; [exact Hn2|]. split.
  - unfold STAR_report. rewrite (star_ok m bc f1 f2 rest H Ht Hb Eo). cbn [bind st_base sr_totalvoters sr_ranklist sr_scores json_fstr st_fin1n st_fin2n st_fin1votes st_fin2votes st_final_abstentions st_winner]. rewrite Eo.
    change (u " stars") with (u " " ++ u "stars"). rewrite El. cbn [bind]. rewrite concat_lines, !unlines_app.
    replace (cand_name m f1) with n1 by (unfold cand_name; rewrite Hn1; reflexivity). replace (cand_name m f2) with n2 by (unfold cand_name; rewrite Hn2; reflexivity).
    unfold unlines at 2 4. cbn [flat_map]. rewrite !app_nil_r, <- !app_assoc. reflexivity.
  - destruct (Z.gtb_spec (votes_over m f1 f2) (votes_over m f2 f1)), (Z.gtb_spec (votes_over m f2 f1) (votes_over m f1 f2)); repeat split; intro; try lia; reflexivity.
Qed.
Print Assumptions C72_star_report.

(** The reports of sample elections. *)
Example C72_star_sample : scorable star_sample /\ tallyable star_sample /\ STAR_report star_sample = Ok (unlines
  [u "Total voters: 12"; u "Scores:"; u "- 31 stars (from 9 voters) -- Bob"; u "- 25 stars (from 5 voters) -- Ann"; u "- 10 stars (from 7 voters) -- Cy"; u "- 0 stars (from 0 voters) -- Di"; u "Finalists: ";
   u "- Bob preferred by 4 of 12 voters"; u "- Ann preferred by 5 of 12 voters"; u "- 3 abstentions"; u "STAR Winner: Ann"]).
Proof. split; [exact star_sample_scorable|]. split; [exact star_sample_tallyable|]. vm_compute. reflexivity. Qed.
Example C72_irv_sample : exists d, schedule o0 /\ irv_election tie_sample /\ strict_election tie_sample /\ IRV_dict_from_jabmod o0 tie_sample = Ok d /\ get_IRV_report d = Ok (unlines
  [[]; u "Round 1:"; u "  Starting cands: A, B, C"; u "  Total starting votes: 15"; u "  Exhausted votes: 0"; u "  Overvotes: 0"; u "  Total counted votes: 15"; u "  Votes by candidate:"; u "    A: 5"; u "    B: 5"; u "    C: 5";
   u "  Eliminated this round: "; u "The IRV winners are A and B and C"]).
Proof. eexists. split; [exact o0_ok|]. split; [irv_elec|]. split; [strict_elec|]. split; vm_compute; reflexivity. Qed.

(** The Copeland report names one winner only, also when there are several. *)
Theorem C72_copeland_tie_refuted : exists m cc, tallyable m /\ full_copecount m = Ok cc /\ get_Copeland_winners cc = Ok [A; B] /\ exists score,
  Copeland_report (j_candidates m) cc = Ok (u "Copeland Winner: a (score: " ++ score ++ u ")" ++ [10%N]).
Proof.
  exists tie_sample. eexists. split; [split; [nodup|]; intros l Hl; simpl in Hl; intuition (subst; reflexivity)|]. split; [vm_compute; reflexivity|]. split; [vm_compute; reflexivity|].
  exists (u "2.0"). vm_compute. reflexivity.
Qed.
Print Assumptions C72_copeland_tie_refuted.
(** The line of the counted votes need not show the sum of the lines of the candidates. *)
Theorem C72_counted_line_refuted : exists m d, irv_election m /\ counts_ok m /\ IRV_dict_from_jabmod o0 m = Ok d /\ get_IRV_report d = Ok (unlines
  [[]; u "Round 1:"; u "  Starting cands: A, B"; u "  Total starting votes: 6"; u "  Exhausted votes: 2"; u "  Overvotes: 0"; u "  Total counted votes: 2"; u "  Votes by candidate:"; u "    A: 3"; u "    B: 1";
   u "  Eliminated this round: B"; u "The IRV winner is A"]).
Proof.
  exists exhaust_sample. eexists. split; [irv_elec|]. split; [intros l Hl; simpl in Hl; intuition (subst; cbn; lia)|]. split; vm_compute; reflexivity.
Qed.
Print Assumptions C72_counted_line_refuted.
