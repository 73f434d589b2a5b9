(** * PropsCounts: C84, only the number of ballots of each kind matters *)

From Coq Require Import Lia Permutation.
From Verif Require Import PyBase PyFacts Jabmod PairwiseModel Spec PairwiseFacts PropsPairwise ScoreModel ScoreFacts IrvModel IrvFacts IrvStrict IrvTrace IrvCriteria IrvCounts PropsIrv.
From Verif Require Import ParserModel ParserFacts PropsParser UrlText JsonText JsonFacts WriterModel ConsolidateFacts PropsConvert JsonParse JabmodJson PropsJson PropsChars.
From Verif Require Import DiagramModel ResultsJson HtmlModel ConvertModel CliModel PropsCli PropsCliMore PropsScripts PropsPipe.
Local Open Scope Z_scope.
Local Open Scope res_scope.

(** Two elections with the same candidate table, where for every way of marking the candidates (which are listed, with
    which ranks and ratings) equally many ballots are marked that way, have the same pairwise counts, win-loss-tie
    records and scores, the same STAR result, and - if no ballot ranks two candidates equal - the same IRV count down
    to the last figure: neither the order of the votelines nor how the ballots are spread over them matters. *)
Theorem C84_only_counts : forall m m', j_candidates m' = j_candidates m -> same_counts (cands m) (j_votelines m) (j_votelines m') ->
  (tallyable m -> tallyable m' -> pairwise_count_dict m' = pairwise_count_dict m /\ full_copecount m' = full_copecount m) /\
  (scorable m -> scorable m' -> basic_score_result m' = basic_score_result m /\
     (dget k_ballotcount (j_metadata m') = dget k_ballotcount (j_metadata m) -> enhanced_score_result m' = enhanced_score_result m /\
        (tallyable m -> tallyable m' -> STAR_result m' = STAR_result m))) /\
  (forall o, schedule o -> irv_election m -> irv_election m' -> strict_election m -> strict_election m' ->
     IRV_dict_from_jabmod o m' = IRV_dict_from_jabmod o m).
Proof.
  intros m m' Ec Hc. assert (Ecs : cands m' = cands m) by (unfold cands; rewrite Ec; reflexivity).
  assert (Hp : tallyable m -> tallyable m' -> pairwise_count_dict m' = pairwise_count_dict m).
  { intros T T'. rewrite !C01_pairwise_exact by assumption. rewrite Ecs. f_equal. apply matrix_ext. intros a b Ha Hb.
    assert (E : votes_over m' a b = votes_over m a b); [|rewrite E; reflexivity].
    unfold votes_over. symmetry. apply (same_question _ _ _ _ Hc). intros v w E. rewrite same_marks_iff in E. unfold prefers. destruct (E a Ha) as (_&_&->), (E b Hb) as (_&_&->). reflexivity. }
  assert (Hs : scorable m -> scorable m' -> basic_score_result m' = basic_score_result m).
  { intros S1 S2. rewrite !basic_score_ok by assumption. rewrite Ecs. f_equal. apply dmap_ext. intros c Hin. f_equal.
    - unfold cand_name. rewrite Ec. reflexivity.
    - unfold total_score. symmetry. apply (same_weight (cands m) _ _ (fun l => rating_on l c) Hc). intros v w E. rewrite same_marks_iff in E. apply (E c Hin).
    - unfold supporters. symmetry. apply (same_question _ _ _ _ Hc). intros v w E. rewrite same_marks_iff in E. destruct (E c Hin) as (_&->&_). reflexivity. }
  split; [|split].
  - intros T T'. split; [exact (Hp T T')|]. apply same_copecount; [exact Ec|exact (Hp T T')].
  - intros S1 S2. split; [exact (Hs S1 S2)|]. intro Eb. pose proof (same_score m m' (Hs S1 S2) Eb) as Ee. split; [exact Ee|]. intros T T'.
    unfold STAR_result. rewrite Ee, (same_copecount m m' Ec (Hp T T')). reflexivity.
  - intros o Ho (Hn&Hne&Hl) (Hn'&Hne'&Hl') Hst Hst'. unfold IRV_dict_from_jabmod. rewrite Ec. change (dkeys (j_candidates m)) with (cands m). rewrite Ecs in Hl'.
    rewrite (irv_count_same o _ 1%nat None (cands m) (cands m) (j_votelines m) (j_votelines m') Ho (incl_refl _) Hn Hne Hl Hst Hl' Hst' Hc). reflexivity.
Qed.
Print Assumptions C84_only_counts.

(** ** Consolidating changes no result *)
Lemma consolidated_counts m cs : clean m -> same_counts cs (j_votelines m) (j_votelines (consolidate m)).
Proof.
  intros H v. symmetry. apply C44_counts_preserved; [exact H|]. intros a b E.
  assert (X : same_marks cs a b = true) by (apply same_marks_iff; intros c _; unfold lists, rating_on, rank_on; rewrite E; auto).
  destruct (same_marks cs v a) eqn:E1, (same_marks cs v b) eqn:E2; auto; exfalso.
  - rewrite (sm_trans _ _ _ _ E1 X) in E2. discriminate.
  - rewrite sm_sym in X. rewrite (sm_trans _ _ _ _ E2 X) in E1. discriminate.
Qed.
(** Every line of the result has the preferences of a line of the input. *)
Lemma consolidated_line m w : clean m -> In w (j_votelines (consolidate m)) -> exists v, In v (j_votelines m) /\ v_prefs w = v_prefs v.
Proof.
  intros H Hw. rewrite C44_exact in Hw by exact H. cbn [j_votelines] in Hw. apply in_map_iff in Hw as (v&<-&Hv). exists v. split; [apply foe_incl, Hv|reflexivity].
Qed.
Lemma consolidated_like m (P : voteline -> Prop) : clean m -> (forall v w, v_prefs w = v_prefs v -> P v -> P w) ->
  (forall v, In v (j_votelines m) -> P v) -> forall v, In v (j_votelines (consolidate m)) -> P v.
Proof. intros H HP HA v Hv. destruct (consolidated_line m v H Hv) as (x&Hx&E). exact (HP x v E (HA x Hx)). Qed.
Lemma consolidated_strict m : clean m -> strict_election m -> strict_election (consolidate m).
Proof.
  intros H A. refine (consolidated_like m (strict_line 9999999999) H _ A). intros v w E (A1&A2&A3). unfold strict_line, rank_on in *. rewrite E. auto.
Qed.
Lemma consolidated_irv m : clean m -> irv_election m -> irv_election (consolidate m).
Proof.
  intros H (A1&A2&A3). split; [exact A1|]. split; [exact A2|]. refine (consolidated_like m (fun l => line_ok (cands m) l /\ forall c p, In (c, p) (v_prefs l) -> p_rank p <> None) H _ A3).
  intros v w E (B1&B2). unfold line_ok in *. rewrite E. auto.
Qed.
Lemma consolidated_tallyable m : clean m -> tallyable m -> tallyable (consolidate m).
Proof.
  intros H (A1&A2). split; [exact A1|]. refine (consolidated_like m (fun l => line_ranked maxsize l = true) H _ A2).
  intros v w E B. unfold line_ranked in *. rewrite E. exact B.
Qed.
Lemma consolidated_scorable m : clean m -> scorable m -> scorable (consolidate m).
Proof.
  intros H (A1&A2). split; [exact A1|]. refine (consolidated_like m (fun l => line_ok (cands m) l /\ line_rated l = true) H _ A2).
  intros v w E (B1&B2). unfold line_ok, line_rated in *. rewrite E. auto.
Qed.

Theorem C84_consolidate : forall m, clean m ->
  (tallyable m -> pairwise_count_dict (consolidate m) = pairwise_count_dict m /\ full_copecount (consolidate m) = full_copecount m) /\
  (scorable m -> basic_score_result (consolidate m) = basic_score_result m /\ enhanced_score_result (consolidate m) = enhanced_score_result m /\
     (tallyable m -> STAR_result (consolidate m) = STAR_result m)) /\
  (forall o, schedule o -> irv_election m -> strict_election m -> IRV_dict_from_jabmod o (consolidate m) = IRV_dict_from_jabmod o m).
Proof.
  intros m H. destruct (C84_only_counts m (consolidate m) eq_refl (consolidated_counts m (cands m) H)) as (A1&A2&A3). split; [|split].
  - intro T. exact (A1 T (consolidated_tallyable m H T)).
  - intro S1. destruct (A2 S1 (consolidated_scorable m H S1)) as (B1&B2). destruct (B2 eq_refl) as (B3&B4). split; [exact B1|]. split; [exact B3|].
    intro T. exact (B4 T (consolidated_tallyable m H T)).
  - intros o Ho I St. exact (A3 o Ho I (consolidated_irv m H I) St (consolidated_strict m H St)).
Qed.
Print Assumptions C84_consolidate.

(** One voteline for q1 + q2 ballots, or two, for q1 and for q2, anywhere in the list. *)
Theorem C84_split : forall m l q1 q2 ls1 ls2 ls o, schedule o -> irv_election m -> strict_election m ->
  j_votelines m = ls1 ++ l :: ls2 -> v_qty l = q1 + q2 -> Permutation ls (with_qty l q1 :: with_qty l q2 :: ls1 ++ ls2) ->
  IRV_dict_from_jabmod o (with_lines m ls) = IRV_dict_from_jabmod o m.
Proof.
  intros m l q1 q2 ls1 ls2 ls o Ho I St El Eq P.
  assert (HL : forall v, In v ls -> exists w, In w (j_votelines m) /\ v_prefs v = v_prefs w).
  { intros v Hv. apply (Permutation_in _ P) in Hv. rewrite El. destruct Hv as [<-|[<-|Hv]]; [exists l; split; [apply in_elt|reflexivity]..|].
    exists v. split; [|reflexivity]. apply in_app_or in Hv as [Hv|Hv]; apply in_or_app; [left|right; right]; exact Hv. }
  destruct (C84_only_counts m (with_lines m ls) eq_refl) as (_&_&A3).
  - intro v. unfold with_lines. cbn [j_votelines]. rewrite (ballots_where_perm _ _ _ P), El. unfold ballots_where. cbn [map zsum]. rewrite !map_app, !zsum_app. cbn [map zsum].
    assert (X : forall q, same_marks (cands m) v (with_qty l q) = same_marks (cands m) v l) by (intro q; reflexivity). rewrite !X. cbn [v_qty with_qty]. destruct (same_marks (cands m) v l); lia.
  - apply A3; try assumption.
    + destruct I as (I1&I2&I3). split; [exact I1|]. split; [exact I2|]. intros v Hv. destruct (HL v Hv) as (w&Hw&E). unfold line_ok. rewrite E. exact (I3 w Hw).
    + intros v Hv. destruct (HL v Hv) as (w&Hw&E). specialize (St w Hw). unfold strict_line, rank_on in *. rewrite E. exact St.
Qed.
Print Assumptions C84_split.

(** With equal ranks it is not so: two lines sharing the first place, one after the other, lose only the first. *)
Theorem C84_overvotes_refuted : exists m o d d', schedule o /\ clean m /\ irv_election m /\ counts_ok m /\
  IRV_dict_from_jabmod o m = Ok d /\ IRV_dict_from_jabmod o (consolidate m) = Ok d' /\ ir_winner d = [C] /\ ir_winner d' = [A].
Proof.
  exists over_sample, o0. do 2 eexists. split; [intros n l; apply Permutation_refl|]. split; [|split; [|split; [|split; [vm_compute; reflexivity|split; [vm_compute; reflexivity|split; vm_compute; reflexivity]]]]].
  - intros v Hv. cbn in Hv. split.
    + destruct Hv as [<-|[<-|[<-|[]]]]; cbn; repeat constructor; cbn; intuition discriminate.
    + intros c p Hc. destruct Hv as [<-|[<-|[<-|[]]]]; cbn in Hc; repeat (destruct Hc as [Hc|Hc]; [injection Hc as <- <-|]); try destruct Hc; (split; [reflexivity|split; intros x Hx; discriminate]).
  - irv_elec.
  - intros l Hl. cbn in Hl. intuition (subst; cbn; lia).
Qed.
Print Assumptions C84_overvotes_refuted.

(** ** On the command line *)
(** Where the report shows the IRV count. *)
Definition shows_irv (to : str) (mods : list str) : Prop := to = u "irvjson" \/ (In to [u "json"; u "paircountjson"; u "text"] /\ In (u "IRV") mods).
Lemma render_equal_irv s rn to w mods m m2 : In to counting_outputs -> j_candidates m2 = j_candidates m -> j_metadata m2 = j_metadata m -> pairwise_count_dict m2 = pairwise_count_dict m ->
  (shows_irv to mods -> IRV_dict_from_jabmod (s_irv s) m2 = IRV_dict_from_jabmod (s_irv s) m) -> basic_score_result m2 = basic_score_result m ->
  abifmodel_has_ratings m2 = abifmodel_has_ratings m ->
  render s rn to w mods m2 = render s rn to w mods m.
Proof.
  intros Hto E1 E0 E2 E3 E4 E6.
  pose proof (same_copecount m m2 E1 E2) as E8. pose proof (same_score m m2 E4 (f_equal (dget k_ballotcount) E0)) as E9.
  assert (E10 : html_table m2 = html_table m) by (unfold html_table; rewrite E1, E2; reflexivity).
  assert (E11 : STAR_result m2 = STAR_result m) by (unfold STAR_result; rewrite E9, E8; reflexivity).
  assert (Hh : forall b x t, html_page m2 b x t = html_page m b x t).
  { intros b x t. unfold html_page, get_title_for_html, get_abif_title, get_abif_desc. rewrite E0, E1. reflexivity. }
  assert (F1 : texttable_rows m2 = texttable_rows m) by (unfold texttable_rows; rewrite E1, E2; reflexivity). assert (F2 : candlist_text m2 = candlist_text m) by (unfold candlist_text; rewrite E1; reflexivity).
  assert (F3 : score_report m2 = score_report m) by (unfold score_report; rewrite E0, E9; reflexivity). assert (F4 : STAR_report m2 = STAR_report m) by (unfold STAR_report; rewrite E11; reflexivity).
  destruct (memb to [u "irvjson"]) eqn:Ei; [apply render_equal; try assumption; [apply E3; left; apply memb_In in Ei; destruct Ei as [<-|[]]; reflexivity|rewrite E0; reflexivity|auto|unfold get_abif_title, get_abif_desc; rewrite E0, E1; auto]|].
  destruct (memb to [u "json"; u "paircountjson"; u "text"]) eqn:Ej.
  - apply memb_In in Ej. destruct (has "IRV" mods) eqn:Eh.
    + apply render_equal; try assumption; [apply E3; right; split; [exact Ej|apply memb_In, Eh]|rewrite E0; reflexivity|auto|unfold get_abif_title, get_abif_desc; rewrite E0, E1; auto].
    + destruct Ej as [<-|[<-|[<-|[]]]].
      * change (render s rn (u "json") w mods m2) with (if has "IRV" mods then let* d := IRV_dict_from_jabmod (s_irv s) m2 in Ok (dumps_indent 4 (json_of_irv (r_set_order rn) d)) else if has "pairwise" mods then let* p := pairwise_count_dict m2 in Ok (dumps_indent 4 (json_of_pairmat p))
          else if has "STAR" mods then let* d := STAR_result m2 in Ok (dumps_indent 4 (json_of_star d)) else Ok (u "Please specify modifier or choose 'jabmod' output format")). rewrite Eh, E2, E11. change (render s rn (u "json") w mods m) with (if has "IRV" mods then let* d := IRV_dict_from_jabmod (s_irv s) m in Ok (dumps_indent 4 (json_of_irv (r_set_order rn) d)) else if has "pairwise" mods then let* p := pairwise_count_dict m in Ok (dumps_indent 4 (json_of_pairmat p))
          else if has "STAR" mods then let* d := STAR_result m in Ok (dumps_indent 4 (json_of_star d)) else Ok (u "Please specify modifier or choose 'jabmod' output format")). rewrite Eh. reflexivity.
      * change (render s rn (u "paircountjson") w mods m2) with (if has "IRV" mods then let* d := IRV_dict_from_jabmod (s_irv s) m2 in Ok (dumps_indent 4 (json_of_irv (r_set_order rn) d)) else let* p := pairwise_count_dict m2 in Ok (dumps_indent 4 (json_of_pairmat p))).
        change (render s rn (u "paircountjson") w mods m) with (if has "IRV" mods then let* d := IRV_dict_from_jabmod (s_irv s) m in Ok (dumps_indent 4 (json_of_irv (r_set_order rn) d)) else let* p := pairwise_count_dict m in Ok (dumps_indent 4 (json_of_pairmat p))). rewrite Eh, E2. reflexivity.
      * change (render s rn (u "text") w mods m2) with (text_output mods (text_sections s rn w m2)). change (render s rn (u "text") w mods m) with (text_output mods (text_sections s rn w m)).
        unfold text_sections. rewrite E2, E6, E8, E1, F1, F2, F3, F4. cbn [text_output]. rewrite Eh. reflexivity.
  - cbn [counting_outputs In] in Hto. destruct Hto as [<-|[<-|[<-|[<-|[<-|[<-|[<-|[<-|[<-|[]]]]]]]]]]; try discriminate Ei; try discriminate Ej.
    + change (render s rn (u "dot") w mods m2) with (let* cc := full_copecount m2 in let* g := copecount_diagram cc in Ok (r_graph rn (u "dot") g)). rewrite E8. reflexivity.
    + change (render s rn (u "svg") w mods m2) with (let* cc := full_copecount m2 in let* g := copecount_diagram cc in Ok (r_graph rn (u "svg") g)). rewrite E8. reflexivity.
    + change (render s rn (u "html") w mods m2) with (let* t := html_table m2 in Ok (r_soup rn (html_page m2 false None t))). rewrite E10.
      change (render s rn (u "html") w mods m) with (let* t := html_table m in Ok (r_soup rn (html_page m false None t))). destruct (html_table m); [|reflexivity]. cbn [bind]. rewrite Hh. reflexivity.
    + unfold render. change (str_eqb (u "html_snippet") (u "abif")) with false. change (str_eqb (u "html_snippet") (u "csvrank")) with false. change (str_eqb (u "html_snippet") (u "dot")) with false.
      change (str_eqb (u "html_snippet") (u "html")) with false. change (str_eqb (u "html_snippet") (u "html_snippet")) with true. cbv iota. rewrite E8, E10. destruct (full_copecount m) as [cc|]; [|reflexivity]. cbn [bind].
      destruct (if has "svg" mods then _ else _); [|reflexivity]. cbn [bind]. destruct (html_table m); [|reflexivity]. cbn [bind]. rewrite Hh. reflexivity.
    + change (render s rn (u "winlosstiejson") w mods m2) with (let* p := pairwise_count_dict m2 in let* x := winlosstie_dict_from_pairdict (j_candidates m2) p in Ok (dumps_indent 4 (json_of_wlt x))). rewrite E1, E2. reflexivity.
Qed.
(** Only these modifiers are looked at when the output is made. *)
Lemma render_mods s rn to w mods mods' m : (forall x, x <> u "consolidate" -> (In x mods' <-> In x mods)) -> render s rn to w mods' m = render s rn to w mods m.
Proof.
  intro H. assert (E : forall x, u x <> u "consolidate" -> has x mods' = has x mods).
  { intros x Hx. unfold has. specialize (H (u x) Hx). destruct (memb (u x) mods') eqn:E1, (memb (u x) mods) eqn:E2; auto.
    - apply memb_In, H, memb_In in E1. congruence.
    - apply memb_In, H, memb_In in E2. congruence. }
  unfold render, text_sections. cbn [text_output]. rewrite !E by discriminate. reflexivity.
Qed.

Lemma parsed_clean t cw ar sc m : convert_abif_to_jabmod t cw ar sc = Ok m -> text t -> clean m.
Proof.
  intros E Ht v Hv. destruct (C78_storable t cw ar sc m E Ht) as (S1&_). destruct (st_lines m S1 v Hv) as [A1 A2 A3 A4 A5]. split; [assumption|].
  intros c p Hin. destruct (A2 c p Hin) as (B1&B2&B3). split; [exact B1|]. split.
  - intros s Es. unfold rating_text in B2. rewrite Es in B2. exact B2.
  - intros d Ed. rewrite Ed in B3. exact B3.
Qed.
Lemma consolidated_first m : clean m -> abifmodel_has_ratings (consolidate m) = abifmodel_has_ratings m.
Proof.
  intro H. rewrite C44_exact by exact H. unfold abifmodel_has_ratings. cbn [j_votelines]. destruct (j_votelines m) as [|v ls]; [reflexivity|]. cbn [first_of_each map nth_error of_option bind v_prefs vl]. reflexivity.
Qed.

(** Adding -m consolidate to a run that counts the ballots of an ABIF text changes nothing of what is printed. *)
Theorem C84_cli : forall s rn a a' t m, takes s a t -> takes s a' t -> In (a_to a) counting_outputs ->
  a_to a' = a_to a -> a_width a' = a_width a -> a_cleanws a' = a_cleanws a -> a_add_scores a' = a_add_scores a ->
  ~ In (u "consolidate") (modifiers a) -> In (u "consolidate") (modifiers a') -> (forall x, x <> u "consolidate" -> (In x (modifiers a') <-> In x (modifiers a))) ->
  convert_abif_to_jabmod t (a_cleanws a) (a_add_scores a) (has "jcomments" (modifiers a)) = Ok m -> text t -> Z.of_nat (length t) <= maxsize ->
  schedule (s_irv s) -> (shows_irv (a_to a) (modifiers a) -> strict_election m) ->
  o_stdout (main s rn a') = o_stdout (main s rn a) /\ o_ending (main s rn a') = o_ending (main s rn a).
Proof.
  intros s rn a a' t m R R' Hto Et Ew Ecw Ear Hno Hyes Hmods Em Ht Hlen Ho Hst.
  pose proof (parsed_clean _ _ _ _ _ Em Ht) as Hcl. destruct (C36_parsed_is_tallyable _ _ _ _ _ Em Hlen) as (T&S1&_&I).
  destruct (C84_consolidate m Hcl) as (A1&A2&A3). destruct (A1 T) as (B1&B2). destruct (A2 S1) as (B3&_).
  assert (Ej : has "jcomments" (modifiers a') = has "jcomments" (modifiers a)).
  { unfold has. specialize (Hmods (u "jcomments") ltac:(discriminate)). destruct (memb (u "jcomments") (modifiers a')) eqn:X1, (memb (u "jcomments") (modifiers a)) eqn:X2; auto.
    - apply memb_In, Hmods, memb_In in X1. congruence.
    - apply memb_In, Hmods, memb_In in X2. congruence. }
  destruct (main_takes s rn a t R) as (reads&msg&E). destruct (main_takes s rn a' t R') as (reads'&msg'&E'). rewrite E, E'. clear E E'.
  rewrite Ecw, Ear, Ej, Em, Et, Ew, (has_false _ _ Hno), (has_true _ _ Hyes), (render_mods s rn (a_to a) (a_width a) _ _ (consolidate m) Hmods).
  rewrite (render_equal_irv s rn (a_to a) (a_width a) (modifiers a) m (consolidate m)); try assumption; try reflexivity.
  - destruct (render _ _ _ _ _ _); split; reflexivity.
  - intro Hs. destruct (cands m) as [|c cs] eqn:Ec; [|apply (A3 _ Ho); [apply I; discriminate|exact (Hst Hs)]].
    unfold IRV_dict_from_jabmod. change (j_candidates (consolidate m)) with (j_candidates m). unfold cands in Ec. apply map_eq_nil in Ec. rewrite Ec. cbn [dkeys map length irv_count].
    assert (L : forall v, In v (j_votelines m) -> v_prefs v = []).
    { intros v Hv. destruct S1 as (_&S1). destruct (S1 v Hv) as ((_&X)&_). unfold cands in X. rewrite Ec in X. destruct (v_prefs v) as [|kv]; [reflexivity|]. destruct (X (fst kv)). left; reflexivity. }
    assert (L' : forall v, In v (j_votelines (consolidate m)) -> v_prefs v = []) by (intros v Hv; destruct (consolidated_line m v Hcl Hv) as (w&Hw&Ew'); rewrite Ew'; exact (L w Hw)).
    assert (D : forall ls, (forall v, In v ls -> v_prefs v = []) -> discard_overvotes ls = Ok (0, ls)).
    { clear. induction ls as [|l ls IH]; intro H; [reflexivity|]. cbn [discard_overvotes]. unfold top_overvoted. rewrite (H l (or_introl eq_refl)). cbn [ranked_list mapM bind]. cbn. rewrite IH by (intros v Hv; apply H; right; exact Hv). reflexivity. }
    assert (F : forall ls a b, (forall v, In v ls -> v_prefs v = []) -> exists a' b', foldM count_step ls ([], a, b) = Ok ([], a', b')).
    { clear. induction ls as [|l ls IH]; intros a b H; [eexists _, _; reflexivity|]. cbn [foldM]. unfold count_step at 1. rewrite (H l (or_introl eq_refl)). cbn [length topcand ranked_list mapM bind]. cbn. apply IH. intros v Hv. apply H. right; exact Hv. }
    assert (G : forall ls, (forall v, In v ls -> v_prefs v = []) -> irv_round [] ls = Err ValueError).
    { intros ls HL. unfold irv_round. rewrite (D _ HL). cbn [bind fold_left]. destruct (F _ 0 0 HL) as (x&y&EF). match goal with |- context [foldM count_step ls ?p] => replace (foldM count_step ls p) with (Ok (@nil (str * Z), x, y)) by (symmetry; exact EF) end. reflexivity. }
    rewrite (G _ L), (G _ L'). reflexivity.
  - exact (consolidated_first m Hcl).
Qed.
Print Assumptions C84_cli.
(** Without other modifiers the option takes the place of the default ones: the report is empty. *)
Theorem C84_cli_alone_refuted : exists x, direct x "text" ["consolidate"%string] = [10%N] /\ direct x "text" [] <> [10%N].
Proof. exists (u "5:A>B>C"). split; [vm_compute; reflexivity|vm_compute; discriminate]. Qed.
Print Assumptions C84_cli_alone_refuted.

(** ** The conditions are met *)
Definition twice : str := u "5:A>B>C" ++ [10%N] ++ u "4:C/1>B/0" ++ [10%N] ++ u "3:A>B>C # again" ++ [10%N] ++ u "2:B>C".
Example C84_nonvacuous : exists m, convert_abif_to_jabmod twice false false false = Ok m /\ text twice /\ strict_election m /\ clean m /\ irv_election m /\ tallyable m /\ scorable m /\
  length (j_votelines m) = 4%nat /\ length (j_votelines (consolidate m)) = 3%nat /\
  takes (pipe_files twice) (cli_args "text" ["IRV"; "STAR"]%string) twice /\ takes (pipe_files twice) (cli_args "text" ["IRV"; "STAR"; "consolidate"]%string) twice.
Proof.
  eexists. split; [vm_compute; reflexivity|]. assert (Ht : text twice) by (vm_compute; reflexivity). split; [exact Ht|].
  split; [strict_elec|]. set (m := Jabmod _ _ _). assert (Em : convert_abif_to_jabmod twice false false false = Ok m) by (vm_compute; reflexivity).
  split; [exact (parsed_clean _ _ _ _ _ Em Ht)|]. destruct (C36_parsed_is_tallyable _ _ _ _ _ Em ltac:(vm_compute; discriminate)) as (T&S1&_&I).
  split; [apply I; discriminate|]. split; [exact T|]. split; [exact S1|]. split; [reflexivity|]. split; [vm_compute; reflexivity|].
  split; left; exists (u "x.abif"); repeat split; discriminate.
Qed.
Example C84_sample : direct twice "text" ["IRV"; "Copeland"; "score"]%string = direct twice "text" ["IRV"; "Copeland"; "score"; "consolidate"]%string /\ direct twice "abif" [] <> direct twice "abif" ["consolidate"]%string.
Proof. split; [vm_compute; reflexivity|vm_compute; discriminate]. Qed.
