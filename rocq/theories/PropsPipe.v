(** * PropsPipe: C82 and C83 on the command line (abiftool -t abif as the first part of a pipe) *)

From Coq Require Import Lia Permutation Sorted.
From Verif Require Import PyBase PyFacts Jabmod Regex RegexFacts WordTable ScoreModel ScoreFacts Spec ParserModel ParserSpec ParserFacts ParserPrefs ParserRender.
From Verif Require Import PairwiseModel PairwiseFacts PropsPairwise IrvModel IrvFacts ParserFile ParserText ParserLines PropsParser TextFacts UrlText UrlFacts JsonText JsonFacts WriterModel ConsolidateFacts RoundtripFacts RoundtripFile RoundtripParsed PropsRoundtrip RoundtripExact PropsStable.
From Verif Require Import PropsIrv IrvEqual PropsIrvEqual DiagramModel ResultsJson HtmlModel ConvertModel CliModel PropsCli PropsCliMore ScriptsModel PropsScripts JsonParse JabmodJson.
Local Open Scope Z_scope.
Local Open Scope res_scope.

(** ** What the outputs depend on *)
Definition counting_outputs : list str := [u "dot"; u "svg"; u "html"; u "html_snippet"; u "irvjson"; u "json"; u "paircountjson"; u "text"; u "winlosstiejson"].
Lemma same_copecount m m2 : j_candidates m2 = j_candidates m -> pairwise_count_dict m2 = pairwise_count_dict m -> full_copecount m2 = full_copecount m.
Proof. intros E1 E2. unfold full_copecount. rewrite E1, E2. reflexivity. Qed.
Lemma same_score m m2 : basic_score_result m2 = basic_score_result m -> dget k_ballotcount (j_metadata m2) = dget k_ballotcount (j_metadata m) -> enhanced_score_result m2 = enhanced_score_result m.
Proof. intros E1 E2. unfold enhanced_score_result, dgetE. rewrite E1, E2. reflexivity. Qed.
Lemma render_equal s rn to w mods m m2 : In to counting_outputs -> j_candidates m2 = j_candidates m -> pairwise_count_dict m2 = pairwise_count_dict m ->
  IRV_dict_from_jabmod (s_irv s) m2 = IRV_dict_from_jabmod (s_irv s) m -> basic_score_result m2 = basic_score_result m -> dget k_ballotcount (j_metadata m2) = dget k_ballotcount (j_metadata m) ->
  (to = u "text" -> In (u "STAR") mods -> abifmodel_has_ratings m2 = abifmodel_has_ratings m) ->
  (In to [u "html"; u "html_snippet"] -> get_abif_desc m2 = get_abif_desc m /\ get_abif_title m2 = get_abif_title m) ->
  render s rn to w mods m2 = render s rn to w mods m.
Proof.
  intros Hto E1 E2 E3 E4 E5 E6 E7. pose proof (same_copecount m m2 E1 E2) as E8. pose proof (same_score m m2 E4 E5) as E9.
  assert (E10 : html_table m2 = html_table m) by (unfold html_table; rewrite E1, E2; reflexivity).
  assert (E11 : STAR_result m2 = STAR_result m) by (unfold STAR_result; rewrite E9, E8; reflexivity).
  assert (Hh : In to [u "html"; u "html_snippet"] -> forall b x t, html_page m2 b x t = html_page m b x t).
  { intros Hin b x t. destruct (E7 Hin) as (A1&A2). unfold html_page, get_title_for_html. rewrite A1, A2. reflexivity. }
  cbn [counting_outputs In] in Hto. destruct Hto as [<-|[<-|[<-|[<-|[<-|[<-|[<-|[<-|[<-|[]]]]]]]]]].
  - change (render s rn (u "dot") w mods m2) with (let* cc := full_copecount m2 in let* g := copecount_diagram cc in Ok (r_graph rn (u "dot") g)). rewrite E8. reflexivity.
  - change (render s rn (u "svg") w mods m2) with (let* cc := full_copecount m2 in let* g := copecount_diagram cc in Ok (r_graph rn (u "svg") g)). rewrite E8. reflexivity.
  - change (render s rn (u "html") w mods m2) with (let* t := html_table m2 in Ok (r_soup rn (html_page m2 false None t))). rewrite E10.
    change (render s rn (u "html") w mods m) with (let* t := html_table m in Ok (r_soup rn (html_page m false None t))). destruct (html_table m); [|reflexivity]. cbn [bind]. rewrite Hh by (left; reflexivity). reflexivity.
  - unfold render. change (str_eqb (u "html_snippet") (u "abif")) with false. change (str_eqb (u "html_snippet") (u "csvrank")) with false. change (str_eqb (u "html_snippet") (u "dot")) with false.
    change (str_eqb (u "html_snippet") (u "html")) with false. change (str_eqb (u "html_snippet") (u "html_snippet")) with true. cbv iota. rewrite E8, E10. destruct (full_copecount m) as [cc|]; [|reflexivity]. cbn [bind].
    destruct (if has "svg" mods then _ else _); [|reflexivity]. cbn [bind]. destruct (html_table m); [|reflexivity]. cbn [bind]. rewrite Hh by (right; left; reflexivity). reflexivity.
  - change (render s rn (u "irvjson") w mods m2) with (let* d := IRV_dict_from_jabmod (s_irv s) m2 in Ok (dumps_indent 4 (json_of_irv (r_set_order rn) d))). rewrite E3. reflexivity.
  - change (render s rn (u "json") w mods m2) with (if has "IRV" mods then let* d := IRV_dict_from_jabmod (s_irv s) m2 in Ok (dumps_indent 4 (json_of_irv (r_set_order rn) d)) else if has "pairwise" mods then let* p := pairwise_count_dict m2 in Ok (dumps_indent 4 (json_of_pairmat p))
      else if has "STAR" mods then let* d := STAR_result m2 in Ok (dumps_indent 4 (json_of_star d)) else Ok (u "Please specify modifier or choose 'jabmod' output format")). rewrite E2, E3, E11. reflexivity.
  - change (render s rn (u "paircountjson") w mods m2) with (if has "IRV" mods then let* d := IRV_dict_from_jabmod (s_irv s) m2 in Ok (dumps_indent 4 (json_of_irv (r_set_order rn) d)) else let* p := pairwise_count_dict m2 in Ok (dumps_indent 4 (json_of_pairmat p))). rewrite E2, E3. reflexivity.
  - change (render s rn (u "text") w mods m2) with (text_output mods (text_sections s rn w m2)). change (render s rn (u "text") w mods m) with (text_output mods (text_sections s rn w m)).
    assert (F1 : texttable_rows m2 = texttable_rows m) by (unfold texttable_rows; rewrite E1, E2; reflexivity). assert (F2 : candlist_text m2 = candlist_text m) by (unfold candlist_text; rewrite E1; reflexivity).
    assert (F3 : score_report m2 = score_report m) by (unfold score_report, dgetE; rewrite E5, E9; reflexivity). assert (F4 : STAR_report m2 = STAR_report m) by (unfold STAR_report; rewrite E11; reflexivity).
    unfold text_sections. rewrite E2, E3, E8, E1, F1, F2, F3, F4. cbn [text_output]. destruct (has "STAR" mods) eqn:Es; [|reflexivity].
    rewrite E6; [reflexivity|reflexivity|]. apply memb_In. exact Es.
  - change (render s rn (u "winlosstiejson") w mods m2) with (let* p := pairwise_count_dict m2 in let* x := winlosstie_dict_from_pairdict (j_candidates m2) p in Ok (dumps_indent 4 (json_of_wlt x))). rewrite E1, E2. reflexivity.
Qed.

(** ** The election in the written text *)
(** How long a ballot can be, and how large its ranks. *)
Lemma parsed_short text cw sc m v : convert_abif_to_jabmod text cw false sc = Ok m -> In v (j_votelines m) ->
  Z.of_nat (length (v_prefs v)) < Z.of_nat (length text) /\ forall c r, rank_on v c = Some r -> r < Z.of_nat (length text).
Proof.
  intros H Hv. destruct (parsed_vote _ _ _ _ _ H Hv) as (line&ks&Hline&Ev). unfold vote_of in Ev. destruct (vote_parts (before_hash (norm cw line))) as [[ds rest]|] eqn:Evp; [|discriminate]. apply some_inj in Ev.
  apply bind_ok in Ev as [q [_ Ev]]. apply bind_ok in Ev as [[ps keys] [Ep Ev]]. apply ok_inj in Ev. injection Ev as <- _. cbn [fst snd v_prefs].
  destruct (parse_prefstr_good _ _ _ Ep) as [(G1&G2) G3]. pose proof (mentions_le _ _ _ Ep) as Hm.
  assert (Hl1 : (length (dkeys ps) <= length keys)%nat) by (apply NoDup_incl_length; [exact G1|intros c Hc; apply G3; exact Hc]).
  unfold dkeys in Hl1. rewrite map_length in Hl1. apply vote_parts_spec in Evp as [Evp [Hne _]].
  assert (Hb := before_hash_len (norm cw line)). rewrite Evp, app_length in Hb. cbn [length] in Hb.
  assert (Hnl : (length (norm cw line) <= length line)%nat) by (destruct cw; cbn; [apply lstrip_len|lia]).
  assert (Hsl : (length line <= length text)%nat) by (apply (splitlines_len text [] false); exact Hline).
  assert (Hd : (1 <= length ds)%nat) by (destruct ds; [congruence|cbn; lia]). pose proof (count_delims_len rest). split; [lia|].
  intros c r Er. unfold rank_on in Er. cbn [v_prefs] in Er. destruct (dget c ps) as [p|] eqn:Edp; [|discriminate]. destruct (G2 c p (dget_In _ _ _ Edp)) as ((z&Ez&Hz)&_). rewrite Ez in Er. apply some_inj in Er. lia.
Qed.
Lemma first_rated m m2 cw t1 : writable m -> StronglySorted (fun x y => v_qty y <= v_qty x) (j_votelines m) -> (forall t, In t (cands m) -> writable_token t) ->
  convert_jabmod_to_abif m = Ok t1 -> convert_abif_to_jabmod t1 cw false false = Ok m2 ->
  (forall v, nth_error (j_votelines m) 0 = Some v ->
     (forall c p, In (c, p) (v_prefs v) -> 0 < rating_on v c) \/ (forall c p, In (c, p) (v_prefs v) -> p_rating p = None)) ->
  (forall v, In v (j_votelines m) -> forall c p r, In (c, p) (v_prefs v) -> p_rating p = Some r -> rating_truthy r = true) ->
  abifmodel_has_ratings m2 = abifmodel_has_ratings m.
Proof.
  intros H Hs Ht T1 T2 Hf Htr. pose proof (file_exact m cw t1 m2 H Hs T1 T2) as F. destruct (reread_writable m cw t1 m2 H Hs Ht T1 T2) as (_&_&_&Hint). destruct H as (Hne&HL&_).
  unfold abifmodel_has_ratings. destruct F as [|v w l1 l2 ((_&Hrt&HP&_)&_) F]; [congruence|]. cbn [nth_error of_option bind].
  specialize (Hf v eq_refl). specialize (Htr v (or_introl eq_refl)). specialize (Hint w (or_introl eq_refl)). destruct (HL v (or_introl eq_refl)) as (_&Hnd&_).
  assert (Hndw : NoDup (dkeys (v_prefs w))) by (eapply Permutation_NoDup; [apply Permutation_sym, HP|exact Hnd]).
  destruct (v_prefs v) as [|[c p] P] eqn:Ep.
  { apply Permutation_sym, Permutation_nil in HP. destruct (v_prefs w) as [|x y]; [reflexivity|discriminate]. }
  destruct (v_prefs w) as [|[d q] Q] eqn:Eq; [apply Permutation_nil in HP; discriminate|]. unfold dvals. cbn [map snd nth_error of_option bind]. f_equal.
  assert (Hd : In d (dkeys ((c, p) :: P))) by (apply (Permutation_in _ HP); left; reflexivity). apply dget_Some_In in Hd as [p' Ed].
  assert (Erw : rating_on w d = match p_rating q with Some (RInt z) => z | _ => 0 end).
  { unfold rating_on. rewrite Eq. cbn [dget]. rewrite str_eqb_refl. pose proof (Hint d q (or_introl eq_refl)) as Hi. unfold int_rated in Hi. destruct (p_rating q) as [[z|x]|]; [reflexivity|destruct Hi|reflexivity]. }
  pose proof (Hint d q (or_introl eq_refl)) as Hi. unfold int_rated in Hi. destruct Hf as [Hf|Hf].
  - assert (A1 : match p_rating q with Some r => rating_truthy r | None => false end = true).
    { pose proof (Hf d p' (dget_In _ _ _ Ed)) as Hpos. rewrite <- Hrt, Erw in Hpos. destruct (p_rating q) as [[z|x]|]; [|destruct Hi|lia]. cbn. destruct (Z.eqb_spec z 0); [lia|reflexivity]. }
    rewrite A1. symmetry. pose proof (Hf c p (or_introl eq_refl)) as Hpos. unfold rating_on in Hpos. rewrite Ep in Hpos. cbn [dget] in Hpos. rewrite str_eqb_refl in Hpos.
    destruct (p_rating p) as [r|] eqn:Er; [|lia]. exact (Htr c p r (or_introl eq_refl) Er).
  - rewrite (Hf c p (or_introl eq_refl)). pose proof (Hf d p' (dget_In _ _ _ Ed)) as Hn. assert (E0 : rating_on v d = 0) by (unfold rating_on; rewrite Ep, Ed, Hn; reflexivity).
    rewrite <- Hrt, Erw in E0. destruct (p_rating q) as [[z|x]|]; [lia|destruct Hi|reflexivity].
Qed.
Lemma parsed_truthy text cw sc m : convert_abif_to_jabmod text cw false sc = Ok m ->
  forall v, In v (j_votelines m) -> forall c p r, In (c, p) (v_prefs v) -> p_rating p = Some r -> rating_truthy r = true.
Proof.
  intros H v Hv c p r Hin Er. destruct (parsed_vote _ _ _ _ _ H Hv) as (line&ks&_&E). unfold vote_of in E.
  destruct (vote_parts _) as [[ds rest]|]; [|discriminate]. apply some_inj in E. apply bind_ok in E as (q&_&E). apply bind_ok in E as ([prefs keys]&Ep&E).
  cbn [fst snd] in E. apply ok_inj in E. injection E as <- _. cbn [v_prefs] in Hin. destruct (parse_prefstr_good _ _ _ Ep) as ((_&Hg)&_).
  destruct (Hg c p Hin) as (_&Hf). apply Hf, Er.
Qed.
Lemma tidy_get k ms : forall d, NoDup (dkeys ms) -> (forall kj, In kj ms -> tidy_entry kj) -> k <> k_ballotcount -> k <> k_ballotcount_abif ->
  dget k (fold_left tidy_set ms d) = match dget k ms with Some j => Some j | None => dget k d end.
Proof.
  induction ms as [|[k0 j0] ms IH]; intros d Hn H K1 K2; [reflexivity|]. cbn [fold_left dkeys map fst] in *. inversion Hn as [|? ? Hni Hn']; subst.
  rewrite IH by (auto; intros kj Hkj; apply H; right; exact Hkj). pose proof (H _ (or_introl eq_refl)) as P. unfold tidy_entry in P. cbn [fst snd] in P. unfold tidy_set. cbn [fst snd dget].
  destruct (str_eqb_spec k k0) as [->|n].
  - rewrite (proj2 (dget_None k0 ms) Hni). destruct P as [(->&_)|(_&_&_&_&s&->&_)]; [congruence|]. rewrite dget_dset_same. reflexivity.
  - destruct (dget k ms); [reflexivity|]. destruct P as [(->&z&->)|(_&_&_&_&s&->&_)]; rewrite dget_dset_other by assumption; reflexivity.
Qed.
Lemma reread_entry text cw sc m cw1 t1 m2 k : convert_abif_to_jabmod text cw false sc = Ok m -> writable m -> tidy_metadata m ->
  convert_jabmod_to_abif m = Ok t1 -> convert_abif_to_jabmod t1 cw1 false false = Ok m2 -> k <> k_ballotcount -> k <> k_ballotcount_abif -> dget k (j_metadata m2) = dget k (j_metadata m).
Proof.
  intros H W Hm T1 T2 K1 K2. pose proof (parsed_tidy _ _ _ _ H Hm) as Htd. destruct (pass_once _ Htd (parsed_counted _ _ _ _ H)) as (a&r&Ea&_).
  pose proof (reread_metadata m cw1 t1 m2 W Hm T1 T2 _ Ea) as M1. pose proof (tidy_get k (j_metadata m) [(k_ballotcount, JInt 0)] (proj1 Htd) (proj2 Htd) K1 K2) as G.
  change (fold_left tidy_set (j_metadata m) [(k_ballotcount, JInt 0)]) with (after_pass (j_metadata m)) in G. rewrite Ea in G. rewrite M1. cbn [dget] in *.
  destruct (str_eqb_spec k k_ballotcount); [congruence|]. rewrite G. destruct (dget k (j_metadata m)); reflexivity.
Qed.

(** ** C83 *)
(** Writing what was read and reading it back changes no result. *)
Theorem C83_same_results : forall text cleanws storecomments m, convert_abif_to_jabmod text cleanws false storecomments = Ok m ->
  (forall c, In c (cands m) -> c <> [] /\ simple c = true) -> cands m <> [] -> (forall v, In v (j_votelines m) -> ratings_agree v) -> Z.of_nat (length text) <= 9999999999 ->
  exists t1, convert_jabmod_to_abif m = Ok t1 /\ forall cleanws1, exists m2, convert_abif_to_jabmod t1 cleanws1 false false = Ok m2 /\
    j_candidates m2 = j_candidates m /\ pairwise_count_dict m2 = pairwise_count_dict m /\ full_copecount m2 = full_copecount m /\
    enhanced_score_result m2 = enhanced_score_result m /\ STAR_result m2 = STAR_result m /\ basic_score_result m2 = basic_score_result m /\
    dget k_ballotcount (j_metadata m2) = dget k_ballotcount (j_metadata m) /\
    forall o, schedule o -> IRV_dict_from_jabmod o m2 = IRV_dict_from_jabmod o m.
Proof.
  intros text cw sc m H Hc Hne Hr Hlen.
  assert (Ht : forall t, In t (cands m) -> writable_token t) by (intros t Hin; destruct (Hc t Hin); split; [assumption|left; assumption]).
  assert (Hs : forall t, In t (cands m) -> simple t = true) by (intros t Hin; apply Hc, Hin).
  assert (Hmx : Z.of_nat (length text) <= maxsize) by (unfold maxsize; lia).
  pose proof (parsed_writable text cw sc m H Ht Hr) as W. pose proof (written_text m W) as T1. eexists. split; [exact T1|]. intro cw1.
  destruct (C40_parsed_roundtrip text cw sc m cw1 H Ht Hr) as (t'&m2&T1'&T2&F&_&Htot&_&G). rewrite T1 in T1'. apply ok_inj in T1'. subst t'. destruct (G Hs) as (Ec&Gp). specialize (Gp Hmx).
  exists m2. split; [exact T2|]. split; [exact Ec|]. split; [exact Gp|]. pose proof (same_copecount m m2 Ec Gp) as E8. split; [exact E8|].
  assert (Hlist : forall v c, In v (j_votelines m) -> lists v c = true -> In c (cands m)).
  { intros v c Hv Hl. apply (parsed_listed _ _ _ _ _ H v c Hv). unfold lists in Hl. destruct (dget c (v_prefs v)) as [p|] eqn:Ep; [|discriminate]. exact (in_map fst _ _ (dget_In _ _ _ Ep)). }
  assert (Esc : basic_score_result m2 = basic_score_result m) by (destruct (C39_same_scores m cw1 _ m2 W Hs Hlist T1 T2) as (res&->&->); reflexivity).
  assert (Eb : dget k_ballotcount (j_metadata m2) = dget k_ballotcount (j_metadata m)) by (rewrite (C28_ballotcount _ _ _ _ _ T2), (C28_ballotcount _ _ _ _ _ H); unfold total_ballots in Htot; rewrite Htot; reflexivity).
  pose proof (same_score m m2 Esc Eb) as E9. split; [exact E9|]. split; [unfold STAR_result; rewrite E9, E8; reflexivity|]. split; [exact Esc|]. split; [exact Eb|]. intros o Ho.
  destruct (C36_parsed_is_tallyable _ _ _ _ _ H Hmx) as (_&_&_&Hirv). specialize (Hirv Hne).
  pose proof (file_exact m cw1 _ m2 W (parsed_sorted _ _ _ _ _ H) T1 T2) as FE.
  assert (Hirv2 : irv_election m2).
  { destruct (C29_well_formed _ _ _ _ _ T2) as (_&_&Hn2&_). split; [exact Hn2|]. split; [unfold cands in *; rewrite Ec; exact Hne|]. intros l Hl.
    destruct (parsed_line _ _ _ _ _ _ T2 Hl) as ((_&L2&L3&ps&_&L5)&_). split; [split; assumption|]. intros c p Hin. destruct (L5 c p Hin) as ((z&->&_)&_). discriminate. }
  assert (Hb : bounded_election m).
  { intros l Hl. split; [intros c r Er; destruct (parsed_short _ _ _ _ _ H Hl) as (_&B); specialize (B c r Er); lia|].
    destruct (lists l []) eqn:El; [|reflexivity]. destruct (Hc [] (Hlist l [] Hl El)). congruence. }
  assert (Hb2 : bounded_election m2).
  { intros l Hl. destruct (proj2 (Forall2_In _ _ _ FE) l Hl) as (v&Hv&((_&Hls&_)&_&HP&Hrk&_)&_). split.
    - intros c r Er. assert (Hlc : lists l c = true) by (unfold lists; unfold rank_on in Er; destruct (dget c (v_prefs l)); [reflexivity|discriminate]). destruct (Hrk c Hlc) as (r'&Er'&Hb'). rewrite Er in Er'. apply some_inj in Er'. subst r'.
      destruct (parsed_short _ _ _ _ _ H Hv) as (B&_). assert (L : length (v_prefs l) = length (v_prefs v)) by (rewrite <- (map_length fst (v_prefs l)), <- (map_length fst (v_prefs v)); apply Permutation_length, HP). rewrite L in Hb'. lia.
    - rewrite Hls. apply (Hb v Hv). }
  exact (C81_same_ballots o m m2 Ho Hirv Hirv2 Hb Hb2 Ec F).
Qed.
Print Assumptions C83_same_results.

(** abiftool -t abif X > Y; abiftool Y with any options that count the ballots prints, and ends as, abiftool X with these options.
    With the STAR section the first voteline must rate all or none of its candidates; for a page the metadata must be plain. *)
Definition shown_alike (m : jabmod) (to : str) (mods : list str) : Prop :=
  In to counting_outputs /\
  (to = u "text" -> In (u "STAR") mods -> forall v, nth_error (j_votelines m) 0 = Some v ->
     (forall c p, In (c, p) (v_prefs v) -> 0 < rating_on v c) \/ (forall c p, In (c, p) (v_prefs v) -> p_rating p = None)) /\
  (In to [u "html"; u "html_snippet"] -> tidy_metadata m).
Lemma alike text cw sc m s rn to w mods : convert_abif_to_jabmod text cw false sc = Ok m ->
  (forall c, In c (cands m) -> c <> [] /\ simple c = true) -> cands m <> [] -> (forall v, In v (j_votelines m) -> ratings_agree v) -> Z.of_nat (length text) <= 9999999999 ->
  schedule (s_irv s) -> shown_alike m to mods ->
  exists t1, convert_jabmod_to_abif m = Ok t1 /\ forall cw1, exists m2, convert_abif_to_jabmod t1 cw1 false false = Ok m2 /\ render s rn to w mods m2 = render s rn to w mods m.
Proof.
  intros H Hc Hne Hr Hlen Ho (S1&S2&S3). destruct (C83_same_results text cw sc m H Hc Hne Hr Hlen) as (t1&T1&G). exists t1. split; [exact T1|]. intro cw1.
  destruct (G cw1) as (m2&T2&E1&E2&_&_&_&E4&E5&E3). exists m2. split; [exact T2|].
  assert (Ht : forall t, In t (cands m) -> writable_token t) by (intros t Hin; destruct (Hc t Hin); split; [assumption|left; assumption]).
  pose proof (parsed_writable text cw sc m H Ht Hr) as W. apply render_equal; try assumption; [exact (E3 _ Ho)| |].
  - intros Et Hst. apply (first_rated m m2 cw1 t1); try assumption; [exact (parsed_sorted _ _ _ _ _ H)|exact (S2 Et Hst)|exact (parsed_truthy _ _ _ _ H)].
  - intro Hin. specialize (S3 Hin).
    assert (Hne1 : exists x y, j_metadata m = x :: y) by (destruct (parsed_counted _ _ _ _ H) as (j&r&->); eauto). assert (Hne2 : exists x y, j_metadata m2 = x :: y) by (destruct (parsed_counted _ _ _ _ T2) as (j&r&->); eauto).
    assert (K : forall k, k <> k_ballotcount -> k <> k_ballotcount_abif -> dget k (j_metadata m2) = dget k (j_metadata m)) by (intros k K1 K2; exact (reread_entry text cw sc m cw1 t1 m2 k H W S3 T1 T2 K1 K2)).
    pose proof (K (u "description") ltac:(discriminate) ltac:(discriminate)) as A1. pose proof (K (u "title") ltac:(discriminate) ltac:(discriminate)) as A2. pose proof (K (u "filename") ltac:(discriminate) ltac:(discriminate)) as A3.
    unfold get_abif_desc, get_abif_title. destruct Hne1 as (x&y&Ex), Hne2 as (x2&y2&Ex2). rewrite Ex, Ex2 in *. rewrite A1, A2, A3, E1. split; reflexivity.
Qed.
(** A run that reads the ABIF text t: from the file g, or from standard input (abiftool -f abif -). *)
Definition takes (s : surroundings) (a : args) (t : str) : Prop :=
  (exists g, reads_abif s a g t) \/ (a_input_file a = [dash] /\ a_fromfmt a = Some (u "abif") /\ s_stdin s = Ok t).
Lemma main_takes s rn a t : takes s a t -> exists reads msg, main s rn a =
  match convert_abif_to_jabmod t (a_cleanws a) (a_add_scores a) (has "jcomments" (modifiers a)) with
  | Ok m => match render s rn (a_to a) (a_width a) (modifiers a) (if has "consolidate" (modifiers a) then consolidate m else m) with Ok out => Outcome reads (println out) Done | Err e => Outcome reads [] (Uncaught e) end
  | Err e => Outcome reads msg (Uncaught e)
  end.
Proof.
  intros [(g&A1&A2&A3&A4&A5)|(A1&A2&A3)].
  - destruct (main_reads s rn a g t _ A1 A2 A3 A4 A5 ltac:(left; reflexivity)) as (msg&E). exists [g], msg. rewrite E. reflexivity.
  - unfold main. unfold input_format. rewrite A2. change (memb (u "abif") validinfmts) with true. cbn [negb]. unfold read_input. rewrite A1, str_eqb_refl, A3. unfold load. change (str_eqb (u "abif") (u "abif")) with true. cbv iota.
    exists [dash]. destruct (convert_abif_to_jabmod _ _ _ _) as [m|e]; [exists []; reflexivity|]. eexists. reflexivity.
Qed.
Theorem C83_pipe : forall s rn a a0 t m, takes s a t -> plain a -> takes s a0 t -> plain a0 -> a_to a0 = u "abif" ->
  convert_abif_to_jabmod t false false false = Ok m -> (forall c, In c (cands m) -> c <> [] /\ simple c = true) -> cands m <> [] ->
  (forall v, In v (j_votelines m) -> ratings_agree v) -> Z.of_nat (length t) <= 9999999999 -> schedule (s_irv s) -> shown_alike m (a_to a) (modifiers a) ->
  o_ending (main s rn a0) = Done /\
  forall s' a', takes s' a' (saved (o_stdout (main s rn a0))) -> same_run s s' a a' -> a_add_scores a' = false ->
  o_ending (main s' rn a') = o_ending (main s rn a) /\ (o_ending (main s rn a) = Done -> o_stdout (main s' rn a') = o_stdout (main s rn a)).
Proof.
  intros s rn a a0 t m R P R0 P0 Et Em Hc Hne Hr Hlen Ho Ha.
  destruct (alike t false false m s rn (a_to a) (a_width a) (modifiers a) Em Hc Hne Hr Hlen Ho Ha) as (t1&T1&G).
  destruct (main_takes s rn a0 t R0) as (reads0&msg0&E0). destruct P0 as (Q1&Q2&Q3&Q4). rewrite Q1, Q2, (has_false _ _ Q3), (has_false _ _ Q4), Em, Et in E0.
  change (render s rn (u "abif") (a_width a0) (modifiers a0) m) with (convert_jabmod_to_abif m) in E0. rewrite T1 in E0. rewrite E0. cbn [o_stdout o_ending]. split; [reflexivity|]. clear E0 Q1 Q2 Q3 Q4.
  intros s' a' R' S C2. destruct (G (a_cleanws a')) as (m2&T2&Er). destruct P as (Q1&Q2&Q3&Q4).
  pose proof S as (S1&S2&S3&S4&S5). assert (Emod : modifiers a' = modifiers a) by (unfold modifiers; rewrite S4; reflexivity).
  destruct (main_takes s rn a t R) as (reads&msg&E). destruct (main_takes s' rn a' _ R') as (reads'&msg'&E'). rewrite E, E'. clear E E'.
  unfold saved, println. rewrite Q1, Q2, C2, Emod, (has_false _ _ Q3), (has_false _ _ Q4), Em, convert_printed, T2, S3, S5, (render_same s s') by exact S1.
  rewrite Er. destruct (render _ _ _ _ _ _); split; reflexivity || discriminate.
Qed.
Print Assumptions C83_pipe.

(** ** C82 on the command line *)
(** abiftool -t abif X > Y; abiftool -t abif Y > Z; from then on abiftool -t abif prints the file it reads. *)
Theorem C82_cli : forall s s1 s2 rn a a1 a2 t m, takes s a t -> plain a -> a_to a = u "abif" ->
  convert_abif_to_jabmod t false false false = Ok m ->
  (forall c, In c (cands m) -> writable_token c) -> (forall v, In v (j_votelines m) -> ratings_agree v) -> numeric_ratings m -> tidy_metadata m ->
  takes s1 a1 (saved (o_stdout (main s rn a))) -> plain a1 -> a_to a1 = u "abif" ->
  takes s2 a2 (saved (o_stdout (main s1 rn a1))) -> plain a2 -> a_to a2 = u "abif" ->
  o_ending (main s rn a) = Done /\ o_ending (main s1 rn a1) = Done /\ o_ending (main s2 rn a2) = Done /\
  o_stdout (main s2 rn a2) = o_stdout (main s1 rn a1).
Proof.
  intros s s1 s2 rn a a1 a2 t m R P Et Em Hc Hr Hn Hm R1 P1 Et1 R2 P2 Et2.
  pose proof (parsed_writable t false false m Em Hc Hr) as W. pose proof (written_text m W) as T1.
  assert (Run : forall s a t m x, takes s a t -> plain a -> a_to a = u "abif" -> convert_abif_to_jabmod t false false false = Ok m -> convert_jabmod_to_abif m = Ok x -> o_ending (main s rn a) = Done /\ o_stdout (main s rn a) = x ++ [10%N]).
  { clear. intros s a t m x R (Q1&Q2&Q3&Q4) Et Em Ex. destruct (main_takes s rn a t R) as (reads&msg&E). rewrite Q1, Q2, (has_false _ _ Q3), (has_false _ _ Q4), Em, Et in E.
    change (render s rn (u "abif") (a_width a) (modifiers a) m) with (convert_jabmod_to_abif m) in E. rewrite Ex in E. rewrite E. split; reflexivity. }
  destruct (Run s a t m _ R P Et Em T1) as (D&O). rewrite O in R1. destruct (file_roundtrip m false false W) as (t1'&m2&_&_&T1'&T2&_). rewrite T1 in T1'. apply ok_inj in T1'. subst t1'.
  destruct (C82_settles t false false m Em Hc Hr Hn Hm _ false m2 T1 T2) as (t2&T3&G).
  assert (E1 : convert_abif_to_jabmod (saved (unlines (file_lines m) ++ [10%N])) false false false = Ok m2) by (unfold saved; rewrite convert_printed; exact T2).
  destruct (Run s1 a1 _ m2 _ R1 P1 Et1 E1 T3) as (D1&O1). rewrite O1 in R2.
  assert (E2 : convert_abif_to_jabmod (saved (t2 ++ [10%N])) false false false = Ok m2) by (unfold saved; rewrite convert_printed; apply G).
  destruct (Run s2 a2 _ m2 _ R2 P2 Et2 E2 T3) as (D2&O2). rewrite O1, O2. auto.
Qed.
Print Assumptions C82_cli.

(** ** Where the outputs differ *)
Definition pipe_files (x : str) : surroundings := Surroundings (fun f => str_eqb f (u "x.abif")) (fun _ => Ok x) (Err OSError) (fun x => x) (Oracle (fun _ => O) (fun _ l => l)).
Definition pipe_to (s : surroundings) (a : args) : surroundings := Surroundings (fun _ => false) (fun _ => Err OSError) (Ok (saved (o_stdout (main s cli_render a)))) (s_sha1 s) (s_irv s).
Definition dash_args (to : string) (mods : list string) : args := Args [dash] (Some (u "abif")) (u to) (match mods with [] => None | _ => Some (map u mods) end) 160 false false.
(** What abiftool OPTIONS x.abif and abiftool -t abif x.abif | abiftool -f abif - OPTIONS print. *)
Definition direct (x : str) (to : string) (mods : list string) : str := o_stdout (main (pipe_files x) cli_render (cli_args to mods)).
Definition piped (x : str) (to : string) (mods : list string) : str := o_stdout (main (pipe_to (pipe_files x) (cli_args "abif" [])) cli_render (dash_args to mods)).
(** A candidate named twice on the first ballot makes the STAR section come or go, since only the first entry of it is looked at. *)
Theorem C83_star_refuted : exists x, direct x "text" ["STAR"%string] <> piped x "text" ["STAR"%string] /\
  direct x "text" ["STAR"%string] <> u "No stars/scores available." ++ u "  Please use --add-scores to extrapolate score from ranks." ++ [10%N] /\
  piped x "text" ["STAR"%string] = u "No stars/scores available." ++ u "  Please use --add-scores to extrapolate score from ranks." ++ [10%N].
Proof. exists (u "1:A>B>A/5"). split; [vm_compute; discriminate|]. split; [vm_compute; discriminate|vm_compute; reflexivity]. Qed.
Print Assumptions C83_star_refuted.
(** Ratings against the ranks: another winner. *)
Theorem C83_ratings_refuted : exists x, direct x "text" ["Copeland"%string] = u "Copeland Winner: A (score: 1.0)" ++ [10%N; 10%N] /\
  piped x "text" ["Copeland"%string] = u "Copeland Winner: B (score: 1.0)" ++ [10%N; 10%N].
Proof. exists (u "1:A/1>B/5"). split; vm_compute; reflexivity. Qed.
Print Assumptions C83_ratings_refuted.
(** A token that needs brackets: its full name is lost, so the report names the token. *)
Theorem C83_brackets_refuted : exists x, direct x "text" ["Copeland"%string] = u "Copeland Winner: Susan Q (score: 1.0)" ++ [10%N; 10%N] /\
  piped x "text" ["Copeland"%string] = u "Copeland Winner: S" ++ [233%N] ++ u " (score: 1.0)" ++ [10%N; 10%N].
Proof. exists (u "=S" ++ [233%N] ++ u ":[Susan Q]" ++ [10%N] ++ u "1:[S" ++ [233%N] ++ u "]>B"). split; vm_compute; reflexivity. Qed.
Print Assumptions C83_brackets_refuted.

(** A run that meets the conditions, for every output. *)
Definition pipe_text : str := u "{title: ""Board""}" ++ [10%N] ++ u "=A:[Ann X]" ++ [10%N] ++ u "5:A/5>B/3>C/1" ++ [10%N] ++ u "4:B/5>A=C # x" ++ [10%N] ++ u "2:C,B".
Example C83_nonvacuous : exists m, convert_abif_to_jabmod pipe_text false false false = Ok m /\ (forall c, In c (cands m) -> c <> [] /\ simple c = true) /\ cands m <> [] /\
  (forall v, In v (j_votelines m) -> ratings_agree v) /\ Z.of_nat (length pipe_text) <= 9999999999 /\ (forall to mods, In to counting_outputs -> shown_alike m to mods) /\
  takes (pipe_files pipe_text) (cli_args "text" ["IRV"; "STAR"]%string) pipe_text /\ plain (cli_args "text" ["IRV"; "STAR"]%string) /\ numeric_ratings m.
Proof.
  eexists. split; [vm_compute; reflexivity|]. split; [|split; [|split; [|split; [|split; [|split; [|split]]]]]].
  - intros c Hin. cbn in Hin. repeat (destruct Hin as [<-|Hin]; [split; [discriminate|vm_compute; reflexivity]|]). destruct Hin.
  - discriminate.
  - intros v Hin. cbn in Hin. destruct Hin as [<-|[<-|[<-|[]]]].
    + intros _ c c' p p' k k' H1 H2 E1 E2. cbn in H1, H2.
      destruct H1 as [H1|[H1|[H1|[]]]], H2 as [H2|[H2|[H2|[]]]]; injection H1 as <- <-; injection H2 as <- <-;
          apply some_inj in E1, E2; subst k k'; vm_compute; split; intro; congruence.
    + intro H. exfalso. exact (H A _ (or_intror (or_introl eq_refl)) eq_refl).
    + intro H. exfalso. exact (H C _ (or_introl eq_refl) eq_refl).
  - vm_compute. discriminate.
  - intros to mods Hto. split; [exact Hto|]. split.
    + intros _ _ v Ev. cbn in Ev. apply some_inj in Ev. subst v. left. intros c p Hin. cbn in Hin. destruct Hin as [E|[E|[E|[]]]]; injection E as <- <-; vm_compute; reflexivity.
    + intros _ k j Hin. cbn in Hin. destruct Hin as [E|[E|[]]]; injection E as <- <-; [left; split; [reflexivity|eexists; reflexivity]|].
      right. cbn [fst snd]. split; [split; [discriminate|split; [vm_compute; reflexivity|intros _; vm_compute; reflexivity]]|]. split; [apply one_lineb; vm_compute; reflexivity|].
      split; [vm_compute; intuition discriminate|]. split; [discriminate|]. eexists. split; [reflexivity|]. split; [discriminate|vm_compute; reflexivity].
  - left. exists (u "x.abif"). repeat split; discriminate.
  - split; [reflexivity|]. split; [reflexivity|]. split; intros Hin; cbn in Hin; intuition discriminate.
  - intros v c p x Hin Hc. cbn in Hin. destruct Hin as [<-|[<-|[<-|[]]]]; cbn in Hc; repeat (destruct Hc as [Hc|Hc]; [injection Hc as <- <-; discriminate|]); destruct Hc.
Qed.
Example C83_sample : direct pipe_text "text" ["IRV"; "STAR"; "candlist"; "score"; "Copeland"]%string = piped pipe_text "text" ["IRV"; "STAR"; "candlist"; "score"; "Copeland"]%string /\
  direct pipe_text "irvjson" [] = piped pipe_text "irvjson" [] /\ direct pipe_text "html" [] = piped pipe_text "html" [].
Proof. split; [|split]; vm_compute; reflexivity. Qed.
