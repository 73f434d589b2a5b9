(** * PropsScripts: C76 (the scripts and what can be piped between programs), C77 (util/configtool.py) *)

From Coq Require Import Lia Permutation.
From Verif Require Import ObjModel ObjFacts ObjReadable.
From Verif Require Import PyBase PyFacts Jabmod PairwiseModel Spec PairwiseFacts PropsPairwise ScoreModel ScoreFacts PropsScore IrvModel IrvFacts IrvStrict IrvTrace IrvCriteria PropsIrv.
From Verif Require Import Regex ParserModel ParserFacts ParserRender PropsParser WriterModel NameqModel DebtallyModel PreflibModel DiagramModel PropsDiagram.
From Verif Require Import UrlText ParserPrefs ParserFile ParserText RoundtripParsed JsonText JsonFacts JsonParse JsonParseFacts JabmodJson PropsJson ResultsJson PropsResults PropsReport HtmlModel PropsHtml PropsChars SpecfileFacts ConvertModel CliModel PropsCli PropsCliMore FetchModel PosixModel ScriptsModel.
From Verif Require PropsConvertText.
Local Open Scope Z_scope.
Local Open Scope res_scope.

(** ** Files between programs *)
(** What Python's text mode makes of a file on reading: every CR LF and every CR becomes LF. *)
Fixpoint universal (s : str) : str :=
  match s with
  | [] => []
  | c :: r => if N.eqb c 13 then match r with
                                 | c' :: r' => if N.eqb c' 10 then 10%N :: universal r' else 10%N :: universal r
                                 | [] => [10%N]
                                 end
              else c :: universal r
  end.
Lemma break_other c r cur st : is_linebreak c = true -> c <> 13%N -> splitlines_aux (c :: r) cur st = rev cur :: splitlines_aux r [] false.
Proof. intros El Nc. cbn [splitlines_aux]. rewrite El. apply N.eqb_neq in Nc. rewrite Nc. destruct r; reflexivity. Qed.
Lemma break_crlf r cur st : splitlines_aux (13%N :: 10%N :: r) cur st = rev cur :: splitlines_aux r [] false.
Proof. reflexivity. Qed.
Lemma break_cr c r cur st : c <> 10%N -> splitlines_aux (13%N :: c :: r) cur st = rev cur :: splitlines_aux (c :: r) [] false.
Proof. intro Nc. apply N.eqb_neq in Nc. change (splitlines_aux (13%N :: c :: r) cur st) with (rev cur :: (if (true && N.eqb c 10)%bool then splitlines_aux r [] false else splitlines_aux (c :: r) [] false)). rewrite Nc. reflexivity. Qed.
Lemma splitlines_universal_aux : forall n s cur st, (length s <= n)%nat -> splitlines_aux (universal s) cur st = splitlines_aux s cur st.
Proof.
  induction n as [|n IH]; intros s cur st Hn; [destruct s; [reflexivity|cbn in Hn; lia]|].
  destruct s as [|c r]; [reflexivity|]. cbn [length] in Hn. cbn [universal]. destruct (N.eqb_spec c 13) as [->|Nc].
  - destruct r as [|c' r']; [reflexivity|]. cbn [length] in Hn.
    destruct (N.eqb_spec c' 10) as [->|Nc'].
    + rewrite break_crlf, break_other, IH by (reflexivity || discriminate || lia). reflexivity.
    + rewrite break_cr, break_other, IH by (reflexivity || discriminate || assumption || cbn [length]; lia). reflexivity.
  - destruct (is_linebreak c) eqn:El.
    + rewrite !break_other, IH by (assumption || lia). reflexivity.
    + cbn [splitlines_aux]. rewrite El. apply IH. lia.
Qed.
Lemma splitlines_universal s : splitlines (universal s) = splitlines s.
Proof. exact (splitlines_universal_aux (length s) s [] false (le_n _)). Qed.
Lemma splitlines_newline_aux : forall n s cur st, (length s <= n)%nat -> (st = false -> cur = []) ->
  splitlines_aux (s ++ [10%N]) cur st = splitlines_aux s cur st \/ splitlines_aux (s ++ [10%N]) cur st = splitlines_aux s cur st ++ [[]].
Proof.
  induction n as [|n IH]; intros s cur st Hn Hc.
  { destruct s; [|cbn in Hn; lia]. cbn [app splitlines_aux]. change (is_linebreak 10) with true. destruct st; [left; reflexivity|]. rewrite (Hc eq_refl). right. reflexivity. }
  destruct s as [|c r]. { cbn [app splitlines_aux]. change (is_linebreak 10) with true. destruct st; [left; reflexivity|]. rewrite (Hc eq_refl). right. reflexivity. }
  cbn [length] in Hn. cbn [app splitlines_aux]. destruct (is_linebreak c) eqn:El; [|apply IH; [lia|discriminate]].
  destruct r as [|c' r']; cbn [app].
  - destruct (N.eqb c 13 && N.eqb 10 10)%bool; cbn [splitlines_aux]; [left; reflexivity|]. change (is_linebreak 10) with true. right. reflexivity.
  - cbn [length] in Hn. destruct (N.eqb c 13 && N.eqb c' 10)%bool.
    + destruct (IH r' [] false) as [E|E]; [lia|reflexivity|left|right]; rewrite E; reflexivity.
    + destruct (IH (c' :: r') [] false) as [E|E]; [cbn [length]; lia|reflexivity|left|right]; cbn [app] in E; rewrite E; reflexivity.
Qed.
Lemma splitlines_newline s : splitlines (s ++ [10%N]) = splitlines s \/ splitlines (s ++ [10%N]) = splitlines s ++ [[]].
Proof. apply (splitlines_newline_aux (length s)); [lia|reflexivity]. Qed.
Lemma empty_line cleanws st m i : process_line cleanws st m (i, []) = Ok m.
Proof.
  unfold process_line. assert (E : (if cleanws then lstrip [] else []) = []) by (destruct cleanws; reflexivity). rewrite E.
  assert (E1 : strip_comment [] = ([], None)) by (vm_compute; reflexivity). rewrite E1. cbn [process_comment bind].
  assert (E2 : re_match CANDLINE_REGEX [] = None) by (vm_compute; reflexivity). rewrite E2.
  assert (E3 : re_match METADATA_REGEX [] = None) by (vm_compute; reflexivity). rewrite E3.
  assert (E4 : re_match VOTELINE_REGEX [] = None) by (vm_compute; reflexivity). rewrite E4. reflexivity.
Qed.
Lemma bind_ok_id {A} (x : result A) : (let* y := x in Ok y) = x.
Proof. destruct x; reflexivity. Qed.
(** What a program prints with print() and another reads from a file is the same election as the text itself. *)
Lemma convert_printed t cleanws add st : convert_abif_to_jabmod (universal (t ++ [10%N])) cleanws add st = convert_abif_to_jabmod t cleanws add st.
Proof.
  assert (Hne : universal (t ++ [10%N]) <> []). { destruct t as [|c r]; [discriminate|]. cbn [app universal]. destruct (N.eqb c 13); [|discriminate]. destruct (r ++ [10%N]) as [|c' r']; [discriminate|]. destruct (N.eqb c' 10); discriminate. }
  assert (E : foldM (process_line cleanws st) (enumerate 0 (splitlines (universal (t ++ [10%N])))) emptyish = foldM (process_line cleanws st) (enumerate 0 (splitlines t)) emptyish).
  { rewrite splitlines_universal. destruct (splitlines_newline t) as [-> | ->]; [reflexivity|]. rewrite enumerate_app, foldM_app. cbn [enumerate].
    destruct (foldM _ _ _) as [m|e]; [|reflexivity]. cbn [bind foldM]. rewrite empty_line. reflexivity. }
  unfold convert_abif_to_jabmod at 1. destruct (universal (t ++ [10%N])) as [|x y] eqn:Eu; [congruence|]. rewrite <- Eu in *. clear Eu. rewrite E.
  destruct t as [|c r]; [|reflexivity]. reflexivity.
Qed.

(** ** C76: the scripts against the command line tool *)
(** A script's run against a run of abiftool: the same files, the same ending, and the same output, or none if it fails. *)
Definition agrees (o o' : outcome) : Prop :=
  o_reads o = o_reads o' /\ o_ending o = o_ending o' /\ (o_ending o' = Done -> o_stdout o = o_stdout o') /\ (o_ending o' <> Done -> o_stdout o = []).
(** Neither --cleanws nor --add-scores nor the modifiers that change what is read. *)
Definition plain (a : args) : Prop :=
  a_cleanws a = false /\ a_add_scores a = false /\ ~ In (u "jcomments") (modifiers a) /\ ~ In (u "consolidate") (modifiers a).
Definition printed (f : str) (r : result str) : outcome := match r with Ok out => Outcome [f] (println out) Done | Err e => Outcome [f] [] (Uncaught e) end.
Lemma main_reads s rn a f t fmt : a_input_file a = [f] -> f <> dash -> s_exists s f = true -> s_read s f = Ok t -> input_format a = Ok fmt -> In fmt validinfmts ->
  exists msg, main s rn a = match load s a fmt t [t] with
                 | Ok m => printed f (render_as (unnamed fmt t [t]) s rn (a_to a) (a_width a) (modifiers a) (if has "consolidate" (modifiers a) then consolidate m else m))
                 | Err e => Outcome [f] msg (Uncaught e)
                 end.
Proof.
  intros El Hd Hx Hr Hf Hv. unfold main. rewrite Hf. apply memb_In in Hv. rewrite Hv. cbn [negb].
  unfold read_input. rewrite El. destruct (str_eqb_spec f dash); [congruence|]. cbn [read_files]. rewrite Hx, Hr. cbn [app].
  destruct (load s a fmt t [t]) as [m|e]; [|eexists; reflexivity]. exists []. unfold printed. destruct (render_as _ _ _ _ _ _ _); reflexivity.
Qed.
Lemma main_plain s rn a f t : reads_abif s a f t -> plain a ->
  exists msg, main s rn a = match convert_abif_to_jabmod t false false false with
                 | Ok m => printed f (render s rn (a_to a) (a_width a) (modifiers a) m)
                 | Err e => Outcome [f] msg (Uncaught e)
                 end.
Proof.
  intros (El&Hd&Hx&Hr&Hf) (P1&P2&P3&P4). destruct (main_reads s rn a f t (u "abif") El Hd Hx Hr Hf ltac:(left; reflexivity)) as (msg&E). exists msg. rewrite E.
  unfold load. change (str_eqb (u "abif") (u "abif")) with true. rewrite P1, P2, (has_false _ _ P3), (has_false _ _ P4). reflexivity.
Qed.
Lemma agrees_script s f t body (r : result jabmod) g msg : s_read s f = Ok t -> body t = bind r g ->
  agrees (script s f body) (match r with Ok m => printed f (g m) | Err e => Outcome [f] msg (Uncaught e) end).
Proof.
  intros Hr Hb. unfold script, agrees. rewrite Hr, Hb. destruct r as [m|e]; cbn [bind].
  - unfold printed. destruct (g m) as [o|e]; cbn; repeat split; intros; congruence.
  - cbn. repeat split; intros; congruence.
Qed.
Lemma text_two s rn w m mods : (forall x, In x mods <-> x = u "candlist" \/ x = u "IRV") ->
  text_output mods (text_sections s rn w m) = (let* d := IRV_dict_from_jabmod (s_irv s) m in let* r := get_IRV_report d in Ok (candlist_text m ++ r)).
Proof.
  intro H. assert (Hn : forall x, x <> u "candlist" -> x <> u "IRV" -> memb x mods = false) by (intros x N1 N2; apply memb_nIn; intro Hx; apply H in Hx; tauto).
  assert (Hy : has "candlist" mods = true) by (apply memb_In, H; auto). assert (Hz : has "IRV" mods = true) by (apply memb_In, H; auto).
  unfold text_sections. cbn [text_output]. rewrite Hy, Hz. unfold has. rewrite !Hn by discriminate. cbn [bind].
  destruct (IRV_dict_from_jabmod (s_irv s) m) as [d|e]; [|reflexivity]. cbn [bind]. destruct (get_IRV_report d) as [r|e]; [|reflexivity]. cbn [bind]. rewrite app_nil_r. reflexivity.
Qed.
(** irvtally.py FILE prints what abiftool -t text -m candlist -m IRV FILE does, and with -j what -t irvjson does. *)
Theorem C76_irvtally : forall s rn a f t, reads_abif s a f t -> plain a ->
  (a_to a = u "text" -> (forall x, In x (modifiers a) <-> x = u "candlist" \/ x = u "IRV") -> agrees (irvtally_main s rn false f) (main s rn a)) /\
  (a_to a = u "irvjson" -> agrees (irvtally_main s rn true f) (main s rn a)).
Proof.
  intros s rn a f t R P. pose proof R as (_&_&_&Hr&_). destruct (main_plain s rn a f t R P) as (msg&E). rewrite E. clear E. split.
  - intros Et Hm. rewrite Et. unfold irvtally_main. apply agrees_script with (t := t); [exact Hr|]. destruct (convert_abif_to_jabmod t false false false) as [m|e]; [|reflexivity]. cbn [bind].
    change (render s rn (u "text") (a_width a) (modifiers a) m) with (text_output (modifiers a) (text_sections s rn (a_width a) m)). rewrite (text_two _ _ _ _ _ Hm). reflexivity.
  - intros Et. rewrite Et. unfold irvtally_main. apply agrees_script with (t := t); [exact Hr|]. destruct (convert_abif_to_jabmod t false false false) as [m|e]; reflexivity.
Qed.
Print Assumptions C76_irvtally.
(** A file that does not exist: abiftool says so and ends with status 0, the scripts with a traceback and status 1. *)
Theorem C76_missing_refuted : exists s rn a f e, a_input_file a = [f] /\ a_fromfmt a = Some (u "abif") /\ s_read s f = Err e /\
  exit_status (o_ending (main s rn a)) = 0 /\ exit_status (o_ending (irvtally_main s rn false f)) = 1 /\ o_stdout (irvtally_main s rn false f) = [].
Proof.
  exists (Surroundings (fun _ => false) (fun _ => Err FileNotFoundError) (Err OSError) (fun x => x) (Oracle (fun _ => O) (fun _ l => l))), cli_render, (Args [u "x"] (Some (u "abif")) (u "text") None 160 false false), (u "x"), FileNotFoundError.
  vm_compute. tauto.
Qed.
Print Assumptions C76_missing_refuted.
(** Every script ends with status 1 and prints nothing when its file cannot be read. *)
Theorem C76_unreadable : forall s rn scaled yaml f e, s_read s f = Err e ->
  forall o, In o [irvtally_main s rn true f; irvtally_main s rn false f; pairwise_main s rn f; scorestar_main s scaled f; debtally_main s f; preflib_main s f; html_pairwise_main s rn f; html_scorestar_main s scaled f]
    \/ (o = configtool_main s yaml f /\ f <> [] /\ s_exists s f = true) \/ (exists fmt, o = copedot_main s rn fmt f /\ f <> dash /\ s_exists s f = true) ->
  o = Outcome [f] [] (Uncaught e).
Proof.
  intros s rn scaled yaml f e He o [H|[(->&Hne&Hx)|(fmt&->&Hd&Hx)]].
  - assert (G : forall body, script s f body = Outcome [f] [] (Uncaught e)) by (intro body; unfold script; rewrite He; reflexivity).
    cbn [In] in H. repeat destruct H as [<-|H]; try apply G. destruct H.
  - unfold configtool_main. destruct f; [congruence|]. rewrite Hx. cbn [negb]. unfold script. rewrite He. reflexivity.
  - unfold copedot_main. destruct (str_eqb_spec f dash); [congruence|]. rewrite Hx, He. reflexivity.
Qed.
Print Assumptions C76_unreadable.

(** pairwise.py FILE: the file with a heading, then what abiftool -t text -m pairwise prints with --width 160. *)
Theorem C76_pairwise : forall s rn a f t, reads_abif s a f t -> plain a -> a_to a = u "text" -> a_width a = 160 -> (forall x, In x (modifiers a) <-> x = u "pairwise") ->
  match main s rn a with
  | Outcome r out Done => pairwise_main s rn f = Outcome r (u "======= ABIF FILE =======" ++ [10%N; 10%N] ++ u "============================" ++ [10%N] ++ f ++ [10%N] ++ u "-------------------------" ++ [10%N]
     ++ t ++ [10%N] ++ u "======= PAIRWISE RESULTS =======" ++ [10%N; 10%N] ++ out) Done
  | Outcome r _ e => pairwise_main s rn f = Outcome r [] e
  end.
Proof.
  intros s rn a f t R P Et Ew Hm. pose proof R as (_&_&_&Hr&_). destruct (main_plain s rn a f t R P) as (msg&E). rewrite E, Et, Ew. clear E.
  unfold pairwise_main, script. rewrite Hr. destruct (convert_abif_to_jabmod t false false false) as [m|e]; [|reflexivity]. cbn [bind].
  change (render s rn (u "text") 160 (modifiers a) m) with (text_output (modifiers a) (text_sections s rn 160 m)).
  assert (Hn : forall x, x <> u "pairwise" -> memb x (modifiers a) = false) by (intros x N1; apply memb_nIn; intro Hx; apply Hm in Hx; tauto).
  assert (Hy : has "pairwise" (modifiers a) = true) by (apply memb_In, Hm; auto).
  unfold text_sections. cbn [text_output]. rewrite Hy. unfold has. rewrite !Hn by discriminate. cbn [bind].
  destruct (pairwise_count_dict m) as [p|e]; [|reflexivity]. cbn [bind]. destruct (table_text _) as [g|e]; [|reflexivity]. cbn [bind printed].
  unfold println, headerfy_text_file. rewrite !app_nil_r, <- !app_assoc. reflexivity.
Qed.
Print Assumptions C76_pairwise.

Lemma abif_object_of t add m : convert_abif_to_jabmod t false add false = Ok m -> exists j, convert_abif_obj t false add false = Ok j /\ abif_object add j m.
Proof. intro E. pose proof (convert_sim t false add false) as G. rewrite E in G. destruct (convert_abif_obj t false add false) as [j|]; [exists j; auto|destruct G]. Qed.
Lemma scorestar_object t m : convert_abif_to_jabmod t false true false = Ok m -> storable m ->
  exists j, convert_abif_obj t false true false = Ok j /\ json_loads (dumps_indent 4 j) = Ok j /\ jabmod_of_json j = Some m /\ abif_object true j m.
Proof.
  intros E St. destruct (abif_object_of t true m E) as (j&Ej&Hj). destruct (abif_object_readable _ _ _ Hj St) as (R1&R2). exists j. split; [exact Ej|]. split; [apply (loads_dumps (Some 4%nat)); assumption|]. split; [exact (abif_object_read _ _ _ Hj)|exact Hj].
Qed.
(** scorestar.py FILE: the file, the ballots with ratings as JSON, the score and STAR results as JSON, the two reports and the scaled
    scores, which add up to 50. *)
Definition banner (title : string) : str := [10%N] ++ u "======= " ++ u title ++ u " =======" ++ [10%N].
Theorem C76_scorestar : forall s scaled f t m, s_read s f = Ok t -> Z.of_nat (length t) <= maxsize ->
  convert_abif_to_jabmod t false true false = Ok m -> text t -> (2 <= length (cands m))%nat -> zsum (map (total_score m) (cands m)) <> 0 ->
  exists ballots scores star score_text star_text res,
    scorestar_main s scaled f = Outcome [f]
      (u "======= ABIF File =======" ++ [10%N] ++ t ++ u "======= ABIF Model (jabmod) =======" ++ [10%N] ++ ballots ++ banner "Raw Score JSON" ++ scores ++ banner "Raw STAR JSON" ++ star
       ++ banner "Score Results" ++ score_text ++ banner "STAR Results" ++ star_text ++ [10%N] ++ u "======= Scaled Scores ========" ++ [10%N] ++ scaled res ++ [10%N]) Done /\
    (exists j, json_loads ballots = Ok j /\ jabmod_of_json j = Some m /\ abif_object true j m) /\
    (exists j order, json_loads scores = Ok j /\ score_members m (zsum (map v_qty (j_votelines m))) order j) /\
    (exists j f1 f2 n1 n2 rest, json_loads star = Ok j /\ score_members m (zsum (map v_qty (j_votelines m))) (f1 :: f2 :: rest) j /\
       dget f1 (j_candidates m) = Some n1 /\ dget f2 (j_candidates m) = Some n2 /\
       member_is "winner" j (JStr (if votes_over m f2 f1 <? votes_over m f1 f2 then n1 else if votes_over m f1 f2 <? votes_over m f2 f1 then n2 else u "tie " ++ n1 ++ u " and " ++ n2))) /\
    score_report m = Ok score_text /\ STAR_report m = Ok star_text /\ scaled_scores m 50 = Ok res /\ (sc_scaled_total res == 50)%Q.
Proof.
  intros s scaled f t m Hr Hl Em Htt Hlen Hz. destruct (C78_storable _ _ _ _ _ Em Htt) as (Hst&_). destruct (C36_parsed_is_tallyable _ _ _ _ _ Em Hl) as (Ht&Hs&_&_). pose proof (C28_ballotcount _ _ _ _ _ Em) as Hb.
  assert (Htx : forall c n, In (c, n) (j_candidates m) -> text c /\ text n) by (destruct Hst; assumption).
  destruct (proj2 (C11_defined m Hs) (ex_intro _ _ Hb)) as (sr&Esr). destruct (proj1 (C12_star_total m _ Hs Ht Hb) Hlen) as (st&Est).
  assert (Hne : cands m <> []) by (destruct (cands m); [cbn in Hlen; lia|discriminate]).
  assert (Hsc : exists x, score_report m = Ok x) by (destruct (C72_score_report m _ Hs Hb Hne) as (o1&l1&w1&nm1&_&_&Esc&_); rewrite Esc; eexists; reflexivity). destruct Hsc as (sct&Esc).
  assert (Hstr : exists x, STAR_report m = Ok x) by (destruct (C72_star_report m _ Hs Ht Hb Hlen) as (f1&f2&rest&ls&n1&n2&w&_&_&_&_&Estr&_); rewrite Estr; eexists; reflexivity). destruct Hstr as (stt&Estr).
  destruct (C15_defined m _ 50 Hs Ht Hb Hlen Hz) as (res&Eres). destruct (scorestar_object t m Em Hst) as (j1&J0&J1&J2&J2b). destruct (C73_score_json m _ sr Hs Htx Hb Esr) as (j2&J3&J4).
  destruct (C73_star_json m _ st Hs Ht Htx Hb Est) as (j3&g1&g2&m1&m2&rest'&J5&J6&J7&J8&_&_&_&_&_&_&_&_&J9).
  exists (dumps_indent 4 j1), (dumps_indent 4 (json_of_score sr)), (dumps_indent 4 (json_of_star st)). exists sct, stt, res. split.
  { unfold scorestar_main, script. rewrite Hr, Em. cbn [bind]. rewrite J0. cbn [bind]. rewrite Esr, Est, Esc, Estr, Eres. cbn [bind]. unfold println.
    change (banner "Raw Score JSON") with ([10%N] ++ u "======= Raw Score JSON =======" ++ [10%N]). change (banner "Raw STAR JSON") with ([10%N] ++ u "======= Raw STAR JSON =======" ++ [10%N]).
    change (banner "Score Results") with ([10%N] ++ u "======= Score Results =======" ++ [10%N]). change (banner "STAR Results") with ([10%N] ++ u "======= STAR Results =======" ++ [10%N]).
    rewrite <- !app_assoc. reflexivity. }
  split; [exists j1; auto|]. split; [exists j2, (sr_ranklist sr); split; [exact J3|exact J4]|].
  split; [exists j3, g1, g2, m1, m2, rest'; auto|]. split; [exact Esc|]. split; [exact Estr|]. split; [exact Eres|].
  destruct (C15_scaled_scores m _ 50 res Hs Ht Hb Hlen Hz Eres) as (_&_&H). exact H.
Qed.
Print Assumptions C76_scorestar.
(** With one candidate, or if no ballot gives a point, the script prints nothing, not even the results it has. *)
Theorem C76_scorestar_nothing_refuted : forall s scaled f t m, s_read s f = Ok t -> Z.of_nat (length t) <= maxsize -> convert_abif_to_jabmod t false true false = Ok m ->
  ((length (cands m) < 2)%nat -> scorestar_main s scaled f = Outcome [f] [] (Uncaught IndexError)) /\
  ((2 <= length (cands m))%nat -> zsum (map (total_score m) (cands m)) = 0 -> scorestar_main s scaled f = Outcome [f] [] (Uncaught ZeroDivisionError)).
Proof.
  intros s scaled f t m Hr Hl Em. destruct (C36_parsed_is_tallyable _ _ _ _ _ Em Hl) as (Ht&Hs&_&_). pose proof (C28_ballotcount _ _ _ _ _ Em) as Hb.
  destruct (proj2 (C11_defined m Hs) (ex_intro _ _ Hb)) as (sr&Esr). destruct (abif_object_of t true m Em) as (j1&J0&_). split.
  - intro Hlen. unfold scorestar_main, script. rewrite Hr, Em. cbn [bind]. rewrite J0. cbn [bind]. rewrite Esr, (proj2 (C12_star_total m _ Hs Ht Hb) Hlen). reflexivity.
  - intros Hlen Hz. destruct (proj1 (C12_star_total m _ Hs Ht Hb) Hlen) as (st&Est). assert (Hne : cands m <> []) by (destruct (cands m); [cbn in Hlen; lia|discriminate]).
    assert (Hsc : exists x, score_report m = Ok x) by (destruct (C72_score_report m _ Hs Hb Hne) as (o1&l1&w1&nm1&_&_&Esc&_); rewrite Esc; eexists; reflexivity). destruct Hsc as (sct&Esc).
    assert (Hstr : exists x, STAR_report m = Ok x) by (destruct (C72_star_report m _ Hs Ht Hb Hlen) as (f1&f2&rest&ls&n1&n2&w&_&_&_&_&Estr&_); rewrite Estr; eexists; reflexivity). destruct Hstr as (stt&Estr).
    unfold scorestar_main, script. rewrite Hr, Em. cbn [bind]. rewrite J0. cbn [bind]. rewrite Esr, Est, Esc, Estr, (C15_zero_total m _ 50 Hs Ht Hb Hlen Hz). reflexivity.
Qed.
Print Assumptions C76_scorestar_nothing_refuted.

(** ** Pipes *)
(** A file made of what a program printed: its text on reading. *)
Definition saved (stdout : str) : str := universal stdout.
(** The same options and surroundings, for the file g of another format. *)
Definition same_run (s s' : surroundings) (a a' : args) : Prop :=
  s_irv s' = s_irv s /\ s_sha1 s' = s_sha1 s /\ a_to a' = a_to a /\ a_modifier a' = a_modifier a /\ a_width a' = a_width a.
Definition reads_as (s : surroundings) (a : args) (fmt : string) (f t : str) : Prop :=
  a_input_file a = [f] /\ f <> dash /\ s_exists s f = true /\ s_read s f = Ok t /\ input_format a = Ok (u fmt).
Lemma render_same s s' rn to w mods m : s_irv s' = s_irv s -> render s' rn to w mods m = render s rn to w mods m.
Proof. intro E. unfold render, text_sections. rewrite E. reflexivity. Qed.
Lemma render_as_same none s s' rn to w mods m : s_irv s' = s_irv s -> render_as none s' rn to w mods m = render_as none s rn to w mods m.
Proof. intro E. unfold render_as, render_unnamed, render, text_sections. rewrite E. reflexivity. Qed.
Lemma pipe_same s s' rn a a' fmt fmt' f f' t t' : reads_as s a fmt f t -> reads_as s' a' fmt' f' t' -> In (u fmt) validinfmts -> In (u fmt') validinfmts -> same_run s s' a a' ->
  load s a (u fmt) t [t] = load s' a' (u fmt') t' [t'] -> unnamed (u fmt) t [t] = unnamed (u fmt') t' [t'] -> o_ending (main s rn a) = o_ending (main s' rn a') /\ (o_ending (main s rn a) = Done -> o_stdout (main s rn a) = o_stdout (main s' rn a')).
Proof.
  intros (A1&A2&A3&A4&A5) (B1&B2&B3&B4&B5) V V' (S1&S2&S3&S4&S5) El En. destruct (main_reads s rn a f t _ A1 A2 A3 A4 A5 V) as (msg&E). destruct (main_reads s' rn a' f' t' _ B1 B2 B3 B4 B5 V') as (msg'&E').
  rewrite E, E', <- El, <- En, S3, S5. assert (Em : modifiers a' = modifiers a) by (unfold modifiers; rewrite S4; reflexivity). rewrite Em. clear E E'.
  destruct (load s a (u fmt) t [t]) as [m|e]; [|split; [reflexivity|discriminate]]. rewrite (render_as_same _ s s') by exact S1. unfold printed. destruct (render_as _ _ _ _ _ _ _); split; reflexivity || discriminate.
Qed.
(** debtally.py X > Y; abiftool Y gives what abiftool -f debtally X gives; the same for PrefLib files. *)
Theorem C76_pipe_importers : forall s s' rn a a' f g fmt stdout, (fmt = "debtally" /\ debtally_main s f = Outcome [f] stdout Done \/ fmt = "preflib" /\ preflib_main s f = Outcome [f] stdout Done)%string ->
  forall t, reads_as s a fmt f t -> reads_as s' a' "abif" g (saved stdout) -> same_run s s' a a' -> a_cleanws a' = false -> a_add_scores a' = false -> ~ In (u "jcomments") (modifiers a') ->
  o_ending (main s rn a) = o_ending (main s' rn a') /\ (o_ending (main s rn a) = Done -> o_stdout (main s rn a) = o_stdout (main s' rn a')).
Proof.
  intros s s' rn a a' f g fmt stdout Hf t R R' S C1 C2 C3. pose proof R as (_&_&_&Hr&_).
  apply (pipe_same s s' rn a a' fmt "abif" f g t (saved stdout) R R'); [destruct Hf as [(->&_)|(->&_)]; cbn; tauto|cbn; tauto|exact S| |destruct Hf as [(->&_)|(->&_)]; reflexivity].
  assert (E : load s' a' (u "abif") (saved stdout) [saved stdout] = convert_abif_to_jabmod (saved stdout) false false false).
  { unfold load. change (str_eqb (u "abif") (u "abif")) with true. rewrite C1, C2, (has_false _ _ C3). reflexivity. }
  rewrite E. clear E. destruct Hf as [(->&Hf)|(->&Hf)]; unfold debtally_main, preflib_main, script in Hf; rewrite Hr in Hf.
  - unfold load. change (str_eqb (u "debtally") (u "abif")) with false. change (str_eqb (u "debtally") (u "debtally")) with true. destruct (convert_debtally_to_abif (s_sha1 s) t []) as [raw|e]; [|discriminate Hf].
    injection Hf as <-. cbn [bind]. symmetry. apply convert_printed.
  - unfold load. change (str_eqb (u "preflib") (u "abif")) with false. change (str_eqb (u "preflib") (u "debtally")) with false. change (str_eqb (u "preflib") (u "jabmod")) with false.
    change (str_eqb (u "preflib") (u "nameq")) with false. change (str_eqb (u "preflib") (u "preflib")) with true. destruct (convert_preflib_str_to_abif t) as [raw|e]; [|discriminate Hf].
    injection Hf as <-. cbn [bind]. symmetry. apply convert_printed.
Qed.
Print Assumptions C76_pipe_importers.

Lemma loads_printed j k w : json_text_ok j = true -> nodup_keys j -> (forall c, In c w -> is_json_ws c = true) -> json_loads (dumps_indent k j ++ w) = Ok j.
Proof.
  intros Ht Hk Hw. unfold dumps_indent. destruct (dumps_at_first (Some k) 0 j) as (c&r&E&Hc&_).
  pose proof (scan_dumps (Some k) j 0 (S (length (dumps_at (Some k) 0 j ++ w))) w Ht Hk) as S1. pose proof (skip_ws_dumps (Some k) 0 j w) as S2. pose proof (depth_length (Some k) j 0) as S3.
  assert (Hb : forall x y, dumps_at (Some k) 0 j ++ w = x :: y -> x <> 65279%N).
  { intros x y Exy Ex. subst x. pose proof (loads_dumps (Some k) j Ht Hk) as L. destruct (dumps_at (Some k) 0 j) as [|x0 r0]; [discriminate E|]. cbn [app] in Exy. injection Exy as -> _. discriminate L. }
  assert (Hd : delimited w). { destruct w as [|x y]; [exact I|]. specialize (Hw x (or_introl eq_refl)). unfold delimited. unfold is_json_ws in Hw. rewrite !orb_true_iff, !N.eqb_eq in Hw. cbn. intuition (subst; reflexivity || tauto). }
  assert (Hs : skip_ws w = []). { clear -Hw. induction w as [|x y IH]; [reflexivity|]. cbn [skip_ws]. rewrite (Hw x (or_introl eq_refl)). apply IH. intros c Hc. apply Hw. right. exact Hc. }
  unfold json_loads. destruct (dumps_at (Some k) 0 j ++ w) as [|x y] eqn:Exy; [destruct (dumps_at (Some k) 0 j); discriminate|].
  specialize (Hb x y eq_refl). rewrite S2, S1; [|rewrite <- Exy, app_length; lia|exact Hd]. cbn [bind fst snd]. rewrite Hs.
  destruct x as [|p]; [reflexivity|]. repeat (destruct p as [p|p|]; try reflexivity). congruence.
Qed.
Definition json_line_char (c : N) : bool := printable c || N.eqb c 10.
Lemma dumps_chars k j : forall level, forallb json_line_char (dumps_at (Some k) level j) = true.
Proof.
  assert (W : forall p, forallb printable p = true -> forallb json_line_char p = true).
  { intros p H. apply forallb_forall. intros c Hc. unfold json_line_char. rewrite (proj1 (forallb_forall _ _) H c Hc). reflexivity. }
  assert (I0 : forall l, forallb json_line_char (newline_indent (Some k) l) = true).
  { intro l. unfold newline_indent. cbn [forallb]. change (json_line_char 10) with true. cbn [andb]. generalize (k * l)%nat as n. induction n as [|n IH]; [reflexivity|]. cbn [repeat forallb]. rewrite IH. reflexivity. }
  assert (I1 : forall l, forallb json_line_char (item_sep (Some k) l) = true).
  { intro l. unfold item_sep. cbn [forallb]. rewrite I0. reflexivity. }
  induction j as [|b0|z|s|l IH|l IH] using json_ind2; intro level.
  - reflexivity.
  - destruct b0; reflexivity.
  - cbn [dumps_at]. apply W. rewrite <- (json_dumps_printable (JInt z)). reflexivity.
  - cbn [dumps_at]. apply W, json_str_printable.
  - destruct l as [|x l]; [reflexivity|]. change (dumps_at (Some k) level (JArr (x :: l))) with (u "[" ++ newline_indent (Some k) (S level) ++ join (item_sep (Some k) (S level)) (map (dumps_at (Some k) (S level)) (x :: l)) ++ newline_indent (Some k) level ++ u "]").
    rewrite !forallb_app, !I0. rewrite forallb_join; [reflexivity|apply I1|]. intros y Hy. apply in_map_iff in Hy as (y'&<-&Hy). apply IH, Hy.
  - destruct l as [|x l]; [reflexivity|]. change (dumps_at (Some k) level (JObj (x :: l))) with (u "{" ++ newline_indent (Some k) (S level) ++ join (item_sep (Some k) (S level)) (map (fun kv => json_str (fst kv) ++ u ": " ++ dumps_at (Some k) (S level) (snd kv)) (x :: l)) ++ newline_indent (Some k) level ++ u "}").
    rewrite !forallb_app, !I0. rewrite forallb_join; [reflexivity|apply I1|]. intros y Hy. apply in_map_iff in Hy as ([k' y']&<-&Hy). cbn [fst snd]. rewrite !forallb_app, (W _ (json_str_printable k')), (IH k' y' Hy). reflexivity.
Qed.
Lemma universal_id s : ~ In 13%N s -> universal s = s.
Proof.
  induction s as [|c r IH]; intro H; [reflexivity|]. cbn [universal]. destruct (N.eqb_spec c 13) as [->|_]; [exfalso; apply H; left; reflexivity|]. f_equal. apply IH. intro Hr. apply H. right. exact Hr.
Qed.
Lemma saved_json k j : saved (dumps_indent k j ++ [10%N]) = dumps_indent k j ++ [10%N].
Proof.
  apply universal_id. intro H. apply in_app_or in H as [H|[H|[]]]; [|discriminate H]. pose proof (proj1 (forallb_forall _ _) (dumps_chars k j 0) _ H) as E. discriminate E.
Qed.
(** abiftool -t jabmod X > Y; abiftool -f jabmod Y gives what abiftool X gives, for every output format and modifier. *)
Theorem C76_pipe_jabmod : forall s s' rn a a0 a' f g t stdout, reads_abif s a f t -> text t -> reads_abif s a0 f t ->
  a_to a0 = u "jabmod" -> a_cleanws a0 = a_cleanws a -> a_add_scores a0 = a_add_scores a -> has "jcomments" (modifiers a0) = has "jcomments" (modifiers a) -> ~ In (u "consolidate") (modifiers a0) ->
  main s rn a0 = Outcome [f] stdout Done ->
  reads_as s' a' "jabmod" g (saved stdout) -> same_run s s' a a' ->
  o_ending (main s rn a) = o_ending (main s' rn a') /\ (o_ending (main s rn a) = Done -> o_stdout (main s rn a) = o_stdout (main s' rn a')).
Proof.
  intros s s' rn a a0 a' f g t stdout R Htt R0 Et C1 C2 C3 C4 Hm R' S.
  destruct R0 as (A1&A2&A3&A4&A5). destruct (main_reads s rn a0 f t _ A1 A2 A3 A4 A5 ltac:(left; reflexivity)) as (msg&E). rewrite E in Hm. clear E.
  assert (El : load s a0 (u "abif") t [t] = load s a (u "abif") t [t]). { unfold load. change (str_eqb (u "abif") (u "abif")) with true. rewrite C1, C2, C3. reflexivity. }
  rewrite El in Hm. destruct (load s a (u "abif") t [t]) as [m|e] eqn:Em; [|discriminate Hm]. rewrite (has_false _ _ C4), Et in Hm.
  change (render s rn (u "jabmod") (a_width a0) (modifiers a0) m) with (Ok (dumps_indent 4 (json_of_jabmod m))) in Hm. cbn [printed] in Hm. injection Hm as <-. change (println (dumps_indent 4 (json_of_jabmod m))) with (dumps_indent 4 (json_of_jabmod m) ++ [10%N]) in R'. rewrite saved_json in R'.
  apply (pipe_same s s' rn a a' "abif" "jabmod" f g t _ R R'); [cbn; tauto|cbn; tauto|exact S| |].
  2:{ rewrite unnamed_abif. unfold load in Em. change (str_eqb (u "abif") (u "abif")) with true in Em. destruct (C78_storable _ _ _ _ _ Em Htt) as (Hst&_). destruct (json_jabmod_ok m Hst) as (J1&J2).
      unfold unnamed. change (str_eqb (u "jabmod") (u "sftxt")) with false. change (str_eqb (u "jabmod") (u "jabmod")) with true. cbv iota. rewrite (loads_printed _ 4 [10%N] J1 J2) by (intros c [<-|[]]; reflexivity). symmetry. exact (PropsConvertText.nobody_null _ m (jabmod_json m)). }
  rewrite Em.
  unfold load in Em. change (str_eqb (u "abif") (u "abif")) with true in Em. destruct (C78_storable _ _ _ _ _ Em Htt) as (Hst&_). destruct (json_jabmod_ok m Hst) as (J1&J2).
  unfold load. change (str_eqb (u "jabmod") (u "abif")) with false. change (str_eqb (u "jabmod") (u "debtally")) with false. change (str_eqb (u "jabmod") (u "jabmod")) with true.
  rewrite (loads_printed _ 4 [10%N] J1 J2) by (intros c [<-|[]]; reflexivity). cbn [bind]. unfold as_jabmod. rewrite (PropsConvertText.named_loads _ m (jabmod_json m)). reflexivity.
Qed.
Print Assumptions C76_pipe_jabmod.

(** ** The pages *)
(** html_output_pairwise.py on a jabmod file: the page of that election, under the title in the file or else the file's name. *)
Theorem C76_html_pairwise : forall s rn f m, storable m -> tallyable m -> s_read s f = Ok (saved (dumps_indent 4 (json_of_jabmod m) ++ [10%N])) ->
  (forall doc, pretty (flat_map pieces doc) (r_soup rn doc)) ->
  exists page, html_pairwise_main s rn f = Outcome [f] (page ++ [10%N]) Done /\ (forall t, In t (tags page) -> own_tag t) /\
    (forall t, dget (u "title") (j_metadata m) = Some t -> says_something t -> shown (u "abiflib/html_output.py Results: " ++ json_fstr t) page) /\
    ((forall t, dget (u "title") (j_metadata m) = Some t -> ~ says_something t) -> shown (u "abiflib/html_output.py Results: " ++ f) page) /\
    (forall a b, In a (cands m) -> In b (cands m) -> a <> b -> shown (a ++ u ": " ++ z2s (votes_over m a b)) page) /\
    (forall c, In c (cands m) -> shown (u "(" ++ wlt_text (record m c) ++ u ")") page).
Proof.
  intros s rn f m Hst Ht Hr Hsoup. rewrite saved_json in Hr. destruct (json_jabmod_ok m Hst) as (J1&J2). assert (Ht' : tallyable (with_filename f m)) by exact Ht.
  destruct (C74_page _ Ht') as (rows&flag&Et&G). exists (r_soup rn (html_page (with_filename f m) false None (rows, flag))). split.
  { unfold html_pairwise_main, script. rewrite Hr, (loads_printed _ 4 [10%N] J1 J2) by (intros c [<-|[]]; reflexivity). cbn [bind]. unfold as_jabmod. rewrite jabmod_json. cbn [of_option bind]. rewrite Et. reflexivity. }
  destruct (G false _ (Hsoup _)) as (T&O). split; [exact O|]. destruct (C74_heading (with_filename f m)) as (H1&H2&_). cbn [with_filename j_metadata] in H1, H2. rewrite !dget_dset in H1, H2.
  change (str_eqb (u "title") (u "filename")) with false in H1, H2. cbv iota in H1, H2. split; [|split].
  - intros t Ht1 Ht2. apply (shown_in _ _ _ T). left. exact (H1 t Ht1 Ht2).
  - intro Hn. apply (shown_in _ _ _ T). left. refine (proj1 (H2 Hn) (JStr f) _). rewrite dget_dset. reflexivity.
  - destruct (C74_results_shown _ rows flag false _ Ht' Et (Hsoup _)) as (V1&V2&_). split; [exact V1|exact V2].
Qed.
Print Assumptions C76_html_pairwise.
(** html_output_scorestar.py on an ABIF file: one block with the STAR report (escaped once too often, C74_star_page_refuted), the STAR
    results as JSON, and the scaled scores. *)
Lemma filename_star f m : STAR_result (with_filename f m) = STAR_result m.
Proof.
  unfold STAR_result, enhanced_score_result. change (basic_score_result (with_filename f m)) with (basic_score_result m). change (full_copecount (with_filename f m)) with (full_copecount m).
  assert (E : dgetE k_ballotcount (j_metadata (with_filename f m)) = dgetE k_ballotcount (j_metadata m)) by (unfold dgetE; cbn [with_filename j_metadata]; rewrite dget_dset; reflexivity).
  rewrite E. reflexivity.
Qed.
Lemma filename_star_report f m : STAR_report (with_filename f m) = STAR_report m.
Proof. unfold STAR_report. rewrite filename_star. reflexivity. Qed.
Lemma filename_scaled f m n : scaled_scores (with_filename f m) n = scaled_scores m n.
Proof.
  unfold scaled_scores. rewrite filename_star.
  assert (E : dgetE k_ballotcount (j_metadata (with_filename f m)) = dgetE k_ballotcount (j_metadata m)) by (unfold dgetE; cbn [with_filename j_metadata]; rewrite dget_dset; reflexivity).
  assert (E' : dget k_max_rating (j_metadata (with_filename f m)) = dget k_max_rating (j_metadata m)) by (cbn [with_filename j_metadata]; rewrite dget_dset; reflexivity).
  rewrite E, E'. reflexivity.
Qed.
Theorem C76_html_scorestar : forall s scaled f t m, s_read s f = Ok t -> Z.of_nat (length t) <= maxsize ->
  convert_abif_to_jabmod t false false false = Ok m -> text t -> (2 <= length (cands m))%nat -> zsum (map (total_score m) (cands m)) <> 0 ->
  exists page report star res j f1 f2 rest,
    html_scorestar_main s scaled f = Outcome [f] (page ++ [10%N]) Done /\ tags page = [u "pre"; u "/pre"] /\
    texts page = trimmed (concat (map html_char report) ++ star ++ scaled res) /\ STAR_report m = Ok report /\ scaled_scores m 50 = Ok res /\
    json_loads star = Ok j /\ score_members m (zsum (map v_qty (j_votelines m))) (f1 :: f2 :: rest) j /\
    member_is "fin1votes" j (JInt (votes_over m f1 f2)) /\ member_is "fin2votes" j (JInt (votes_over m f2 f1)).
Proof.
  intros s scaled f t m Hr Hl Em Htt Hlen Hz. destruct (C36_parsed_is_tallyable _ _ _ _ _ Em Hl) as (Ht&Hs&_&_). pose proof (C28_ballotcount _ _ _ _ _ Em) as Hb. destruct (C78_storable _ _ _ _ _ Em Htt) as (Hst&_).
  assert (Htx : forall c n, In (c, n) (j_candidates m) -> text c /\ text n) by (destruct Hst; assumption).
  destruct (proj1 (C12_star_total m _ Hs Ht Hb) Hlen) as (st&Est).
  assert (Hstr : exists x, STAR_report m = Ok x) by (destruct (C72_star_report m _ Hs Ht Hb Hlen) as (f1&f2&rest&ls&n1&n2&w&_&_&_&_&Estr&_); rewrite Estr; eexists; reflexivity). destruct Hstr as (stt&Estr).
  destruct (C15_defined m _ 50 Hs Ht Hb Hlen Hz) as (res&Eres).
  destruct (C73_star_json m _ st Hs Ht Htx Hb Est) as (j&g1&g2&m1&m2&rest'&J5&J6&_&_&_&_&_&_&_&V1&V2&_&_).
  destruct (C74_star_page stt (dumps_indent 4 (json_of_star st)) (scaled res)) as (P1&P2&_).
  exists (html_score_and_star stt (dumps_indent 4 (json_of_star st)) (scaled res)), stt, (dumps_indent 4 (json_of_star st)), res, j, g1, g2, rest'.
  split; [|auto 10]. unfold html_scorestar_main, script. rewrite Hr, Em. cbn [bind].
  cbv zeta. rewrite filename_star_report, Estr, filename_star, Est, filename_scaled, Eres. reflexivity.
Qed.
Print Assumptions C76_html_scorestar.

(** ** util/copedot.py *)
(** With --outfmt dot or svg, the file or standard input is shown as abiftool -f abif does; a missing file gets the same sentence. *)
Theorem C76_copedot : forall s rn a f fmt, In fmt [u "dot"; u "svg"] -> a_to a = fmt -> a_input_file a = [f] -> a_fromfmt a = Some (u "abif") -> plain a ->
  let o := copedot_main s rn fmt f in let o' := main s rn a in
  o_reads o = o_reads o' /\ o_ending o = o_ending o' /\ (exit_status (o_ending o') = 0 -> o_stdout o = o_stdout o') /\ (exit_status (o_ending o') <> 0 -> o_stdout o = []).
Proof.
  intros s rn a f fmt Hf Et Ei Ef (P1&P2&P3&P4). cbv zeta. unfold main. unfold input_format. rewrite Ef. change (memb (u "abif") validinfmts) with true. cbn [negb].
  assert (Er : forall m, render s rn (a_to a) (a_width a) (modifiers a) m = (let* cc := full_copecount m in let* g := copecount_diagram cc in Ok (r_graph rn fmt g))).
  { intro m. rewrite Et. destruct Hf as [<-|[<-|[]]]; reflexivity. }
  assert (G : forall reads t blobs, let o := match (let* abifmodel := convert_abif_to_jabmod t false false false in let* cc := full_copecount abifmodel in let* g := copecount_diagram cc in Ok (r_graph rn fmt g)) with
                                             | Ok out => Outcome reads (println out) Done | Err e => Outcome reads [] (Uncaught e) end in
    let o' := match load s a (u "abif") t blobs with
              | Ok m => match render s rn (a_to a) (a_width a) (modifiers a) (if has "consolidate" (modifiers a) then consolidate m else m) with Ok out => Outcome reads (println out) Done | Err e => Outcome reads [] (Uncaught e) end
              | Err e => Outcome reads (match e with VotelineExn => if str_eqb (u "abif") (u "abif") then println (u "ERROR: " ++ voteline_message t) else [] | _ => [] end) (Uncaught e) end in
    o_reads o = o_reads o' /\ o_ending o = o_ending o' /\ (exit_status (o_ending o') = 0 -> o_stdout o = o_stdout o') /\ (exit_status (o_ending o') <> 0 -> o_stdout o = [])).
  { intros reads t blobs. cbv zeta. unfold load. change (str_eqb (u "abif") (u "abif")) with true. rewrite P1, P2, (has_false _ _ P3), (has_false _ _ P4).
    destruct (convert_abif_to_jabmod t false false false) as [m|e]; [|cbn; repeat split; intros; congruence]. cbn [bind]. rewrite Er.
    destruct (let* cc := full_copecount m in let* g := copecount_diagram cc in Ok (r_graph rn fmt g)) as [out|e]; cbn; repeat split; intros; congruence. }
  unfold read_input. rewrite Ei. unfold copedot_main. destruct (str_eqb_spec f dash) as [->|Hd].
  - destruct (s_stdin s) as [t|e]; [apply G|cbn; repeat split; intros; congruence].
  - cbn [read_files app]. destruct (s_exists s f) eqn:Ex; cbn [negb].
    + destruct (s_read s f) as [t|e]; [apply G|cbn; repeat split; intros; congruence].
    + cbn. repeat split; intros; congruence.
Qed.
Print Assumptions C76_copedot.
(** With --outfmt json too one gets the diagram, in graphviz's own JSON format, and not the counts that the program was to print. *)
Theorem C76_copedot_json : forall s rn f t m, f <> dash -> s_exists s f = true -> s_read s f = Ok t -> Z.of_nat (length t) <= maxsize -> convert_abif_to_jabmod t false false false = Ok m -> cands m <> [] ->
  exists cc g, full_copecount m = Ok cc /\ copecount_diagram cc = Ok g /\ copedot_main s rn (u "json") f = Outcome [f] (r_graph rn (u "json") g ++ [10%N]) Done /\
    Permutation (map fst (g_nodes g)) (cands m).
Proof.
  intros s rn f t m Hd Hx Hr Hl Em Hne. destruct (C36_parsed_is_tallyable _ _ _ _ _ Em Hl) as (Ht&_&_&_). destruct (C05_copecount_total m Ht) as (cc&Ec). destruct (proj1 (C56_total m cc Ht Ec) Hne) as (g&Eg).
  exists cc, g. split; [exact Ec|]. split; [exact Eg|]. split; [|exact (proj1 (C56_nodes m cc g Ht Ec Eg))].
  unfold copedot_main. destruct (str_eqb_spec f dash); [congruence|]. rewrite Hx, Hr. cbn [negb bind]. rewrite Em. cbn [bind]. rewrite Ec. cbn [bind]. rewrite Eg. reflexivity.
Qed.
Print Assumptions C76_copedot_json.

(** ** core.py as a script *)
(** pref_to_dict and process_abif_prefline print the preferences the reader finds in the text, key by key as an ABIF file's: the candidates in the order written, and for
    each its rating, rank and following delimiter.  The second one puts them into a ballot of quantity 0 of an election with these candidates. *)
Theorem C76_core_prefs : forall list_str line rest prefs ks, text line -> parse_prefstr line = Ok (prefs, ks) ->
  (exists out ps, core_main list_str (u "pref_to_dict") (line :: rest) = Outcome [] (out ++ [10%N]) Done /\
     json_loads out = Ok (JObj [(u "prefs", JObj ps); (u "cands", strings ks)]) /\ candidates_shown (abif_order false line) ps prefs) /\
  (exists out j names, core_main list_str (u "process_abif_prefline") (line :: rest) = Outcome [] (out ++ [10%N]) Done /\ json_loads out = Ok j /\
     abif_object false j (Jabmod [(u "ballotcount", JInt 0)] names [Voteline 0 prefs None (Some (rstrip line)) None None]) /\
     NoDup (map fst names) /\ forall c n, In (c, n) names <-> In c ks /\ n = c).
Proof.
  intros list_str line rest prefs ks Ht E. destruct (parse_prefstr_all scalar _ _ _ E Ht) as (H1&H2). destruct (parse_prefstr_good _ _ _ E) as ((G1&_)&_).
  pose proof (parse_sim line) as S0. rewrite E in S0. destruct (parse_prefstr_obj line) as [[ps ks']|] eqn:Eo; [|destruct S0]. cbn [same_result fst snd] in S0. destruct S0 as (->&S0).
  assert (Tr : text (rstrip line)) by (apply (all_incl scalar _ line); [apply rstrip_incl|exact Ht]).
  assert (Sl : storable_line (Voteline 0 prefs None (Some (rstrip line)) None None)).
  { constructor; cbn [v_prefs v_comment v_prefstr v_voterid v_nameq opt_text]; try exact I; [exact G1| |exact Tr]. intros c p Hin. destruct (H1 c p Hin) as (A1&A2&A3). split; [exact A1|]. split; [unfold rating_text; destruct (p_rating p) as [[z|q]|]; try exact I; exact (A2 q eq_refl)|destruct (p_nextdelim p) as [d|]; [exact (A3 d eq_refl)|exact I]]. }
  pose proof (laid_shown false line ps prefs S0) as Sh. split.
  - set (x := map (fun cd => (fst cd, JObj (snd cd))) ps) in Sh. assert (R : ObjReadable.readable (JObj x)) by (apply (shown_ok x (Voteline 0 prefs None (Some (rstrip line)) None None) (shown_weaken _ _ _ _ (abif_order_any false line) Sh) Sl)).
    exists (dumps_indent 4 (JObj [(u "prefs", JObj x); (u "cands", strings ks)])), x.
    split; [change (core_main list_str (u "pref_to_dict") (line :: rest)) with (match (let* d := parse_prefstr_obj line in Ok (dumps_indent 4 (json_of_prefstrdict d))) with Ok out => Outcome [] (println out) Done | Err e => Outcome [] [] (Uncaught e) end); rewrite Eo; reflexivity|].
    split; [|exact Sh]. assert (Q : ObjReadable.readable (JObj [(u "prefs", JObj x); (u "cands", strings ks)])); [|apply (loads_dumps (Some 4%nat)); apply Q].
    apply readable_obj; [cbn; repeat constructor; cbn; intuition discriminate|]. intros k y [Ek|[Ek|[]]]; injection Ek as <- <-; (split; [reflexivity|]); [exact R|]. split; [apply jstrs_text, H2|apply jstrs_nodup].
  - set (names := merge_cands ks []). set (m := Jabmod [(k_ballotcount, JInt 0)] names [Voteline 0 prefs None (Some (rstrip line)) None None]).
    assert (Nn : NoDup (map fst names)) by (apply merge_cands_facts; constructor).
    assert (Hn : forall c n, In (c, n) names <-> In c ks /\ n = c).
    { assert (G : forall l d, (forall c n, In (c, n) d -> n = c) -> forall c n, In (c, n) (merge_cands l d) -> n = c).
      { induction l as [|k l IH]; intros d Hd; [exact Hd|]. change (merge_cands (k :: l) d) with (merge_cands l (if dmem k d then d else dset k k d)). apply IH. destruct (dmem k d); [exact Hd|]. intros c n Hin. apply In_dset in Hin as [(-> & ->)|Hin]; [reflexivity|exact (Hd c n Hin)]. }
      assert (G' : forall c n, In (c, n) names -> n = c) by (apply G; intros c n []). destruct (merge_cands_facts ks [] (NoDup_nil _)) as (_&K&_).
      intros c n. split; intro Hc.
      - split; [|exact (G' c n Hc)]. destruct (proj1 (K c) (in_map fst _ _ Hc)) as [X|[]]. exact X.
      - destruct Hc as (Hc&->). pose proof (proj2 (K c) (or_introl Hc)) as X. apply in_map_iff in X as ([c0 n0]&X1&X2). cbn [fst] in X1. subst c0. rewrite <- (G' c n0 X2) at 2. exact X2. }
    assert (Em : exists st, process_prefline_obj (u "0") line None (emptyish, []) = Ok st /\ st_rel st m).
    { eexists. unfold process_prefline_obj. change (py_int (u "0")) with (Ok 0 : result Z). cbn [bind]. change (dgetE k_ballotcount (j_metadata emptyish)) with (Ok (JInt 0) : result json). cbn [bind]. rewrite Eo. cbn [bind]. split; [reflexivity|]. split; [reflexivity|]. split; [reflexivity|]. cbn [snd app m j_votelines]. constructor; [|constructor]. exact (linepair_shown 0 None ps prefs line None S0). }
    destruct Em as (st&Em&R1&R2&R3). assert (O : abif_object false (json_of_prefline st) m).
    { exists (snd st). split; [|exact R3]. unfold json_of_prefline, emptyish_object, names_of. rewrite R1, R2. reflexivity. }
    assert (St : storable m).
    { constructor; cbn [m j_candidates j_metadata j_votelines].
      - exact Nn.
      - intros c n Hc. apply Hn in Hc as (Hc&->). split; exact (H2 c Hc).
      - repeat constructor; cbn; tauto.
      - intros k x [Ex|[]]. injection Ex as <- <-. repeat split.
      - intros v [<-|[]]. exact Sl. }
    exists (dumps_indent 4 (json_of_prefline st)), (json_of_prefline st), names.
    split; [change (core_main list_str (u "process_abif_prefline") (line :: rest)) with (match (let* st := process_prefline_obj (u "0") line None (emptyish, []) in Ok (dumps_indent 4 (json_of_prefline st))) with Ok out => Outcome [] (println out) Done | Err e => Outcome [] [] (Uncaught e) end); rewrite Em; reflexivity|].
    split; [apply (loads_dumps (Some 4%nat)); apply (abif_object_readable _ _ _ O St)|]. split; [exact O|]. split; [exact Nn|exact Hn].
Qed.
Print Assumptions C76_core_prefs.
(** A text the reader cannot read is a traceback; emptyish is the election without candidates and ballots; modify_jabmod does nothing. *)
Theorem C76_core_rest : forall list_str line rest e,
  (parse_prefstr line = Err e -> forall func, func = u "pref_to_dict" \/ func = u "process_abif_prefline" -> core_main list_str func (line :: rest) = Outcome [] [] (Uncaught e)) /\
  (exists out j, core_main list_str (u "emptyish") (line :: rest) = Outcome [] (out ++ [10%N]) Done /\ json_loads out = Ok j /\ j = JObj [(u "candidates", JObj []); (u "metadata", JObj [(u "ballotcount", JInt 0)]); (u "votelines", JArr [])]) /\
  core_main list_str (u "modify_jabmod") (line :: rest) = Outcome [] (u "FIXME: need to load jabmod file " ++ list_str (line :: rest) ++ [10%N]) Done.
Proof.
  intros list_str line rest e. split; [|split].
  - intros E func Hf. pose proof (parse_sim line) as S0. rewrite E in S0. destruct (parse_prefstr_obj line) as [|e'] eqn:Eo; [destruct S0|]. cbn [same_result] in S0. subst e'. destruct Hf as [-> | ->].
    + change (core_main list_str (u "pref_to_dict") (line :: rest)) with (match (let* d := parse_prefstr_obj line in Ok (dumps_indent 4 (json_of_prefstrdict d))) with Ok out => Outcome [] (println out) Done | Err e => Outcome [] [] (Uncaught e) end). rewrite Eo. reflexivity.
    + change (core_main list_str (u "process_abif_prefline") (line :: rest)) with (match (let* st := process_prefline_obj (u "0") line None (emptyish, []) in Ok (dumps_indent 4 (json_of_prefline st))) with Ok out => Outcome [] (println out) Done | Err e => Outcome [] [] (Uncaught e) end).
      unfold process_prefline_obj. change (py_int (u "0")) with (Ok 0 : result Z). cbn [bind]. change (dgetE k_ballotcount (j_metadata emptyish)) with (Ok (JInt 0) : result json). cbn [bind]. rewrite Eo. reflexivity.
  - exists (dumps_indent 4 (json_of_prefline (emptyish, []))), (json_of_prefline (emptyish, [])). split; [reflexivity|]. split; [vm_compute; reflexivity|reflexivity].
  - unfold core_main. cbn [str_eqb u N.eqb N_of_ascii]. unfold println. rewrite <- app_assoc. reflexivity.
Qed.
Print Assumptions C76_core_rest.

(** ** The help text *)
(** Every input format, output format and modifier that is accepted has exactly one line in the help, in that order, and no others do. *)
Definition help_names (bullet : string) : list str :=
  flat_map (fun l => match JsonParse.starts_with (u bullet ++ u " ") l with
                     | Some r => match split_once 58 r with Some (name, _) => [name] | None => [] end
                     | None => [] end) (splitlines gen_epilog).
Theorem C76_help : help_names "--from" = validinfmts /\ help_names "--to" = validoutfmts /\ help_names "--modifier" = validmod /\
  get_keys_from_dict_list INPUT_FORMATS = validinfmts /\ get_keys_from_dict_list OUTPUT_FORMATS = validoutfmts /\ get_keys_from_dict_list MODIFIERS = validmod /\
  NoDup validinfmts /\ NoDup validoutfmts /\ NoDup validmod.
Proof. repeat (split; [vm_compute; reflexivity|]). repeat split; nodup. Qed.
Print Assumptions C76_help.

(** ** C77: util/configtool.py *)
(** The part of a path after its last slash *)
Definition last_part (p name : str) : Prop := ~ In 47%N name /\ (p = name \/ exists dir, p = dir ++ [47%N] ++ name).
(** One archive entry and what the list says about it *)
Definition listed (sub entry : json) : Prop :=
  exists loc, member_is "abifloc" sub (JStr loc) /\ member_is "filename" entry (JStr loc) /\
    (forall name, name <> [] -> last_part loc (name ++ u ".abif") -> member_is "id" entry (JStr name)) /\
    ((forall x, loc <> x ++ u ".abif" /\ loc <> x ++ u ".abif" ++ [10%N]) -> member_is "id" entry JNull) /\
    (forall title, member_is "title" sub title -> says_something title -> member_is "title" entry title) /\
    ((forall title, member_is "title" sub title -> ~ says_something title) -> jmember (u "title") entry = jmember (u "id") entry) /\
    (forall tags, member_is "tags" sub (strings tags) -> tags <> [] -> member_is "tags" entry (JStr (join (u ", ") tags))) /\
    (jmember (u "tags") sub = None -> member_is "tags" entry JNull) /\
    (forall desc, member_is "desc" sub desc -> member_is "desc" entry desc) /\ (jmember (u "desc") sub = None -> member_is "desc" entry JNull).
(** What the archive entries of a fetchspec may be *)
Definition sub_ok (sub : json) : Prop :=
  (exists loc, member_is "abifloc" sub (JStr loc)) /\ (jmember (u "tags") sub = None \/ exists tags, member_is "tags" sub (strings tags)).
Lemma iter_strings tags : iter_strs (strings tags) = Ok tags.
Proof. unfold iter_strs, strings. induction tags as [|x r IH]; [reflexivity|]. cbn [map mapM bind]. rewrite IH. reflexivity. Qed.
Lemma suffix_found p s : without_suffix p (s ++ p) = Some s.
Proof.
  unfold without_suffix. rewrite rev_app_distr. assert (E : forall q r, JsonParse.starts_with q (q ++ r) = Some r). { induction q as [|x q IH]; intro r; [reflexivity|]. cbn [JsonParse.starts_with app]. rewrite N.eqb_refl. apply IH. }
  rewrite E, rev_involutive. reflexivity.
Qed.
Lemma id_found loc name : name <> [] -> last_part loc (name ++ u ".abif") -> abif_id loc = Some name.
Proof.
  intros Hne (Hs&H). assert (Hn : ~ In 47%N name) by (intro Hi; apply Hs, in_or_app; left; exact Hi). unfold abif_id.
  assert (G : forall x, basename x = name -> match basename x with [] => None | c :: r => Some (c :: r) end = Some name) by (intros x ->; destruct name; [congruence|reflexivity]).
  destruct H as [->|(dir&->)].
  - rewrite suffix_found. apply G. unfold basename. rewrite upto_none by exact Hn. reflexivity.
  - replace (dir ++ [47%N] ++ name ++ u ".abif") with ((dir ++ [47%N] ++ name) ++ u ".abif") by (rewrite <- !app_assoc; reflexivity). rewrite suffix_found. apply G. exact (basename_split dir name Hn).
Qed.
Lemma starts_with_app : forall p s r, JsonParse.starts_with p s = Some r -> s = p ++ r.
Proof.
  induction p as [|x p IH]; intros s r H; [injection H as ->; reflexivity|]. destruct s as [|y s]; [discriminate H|]. cbn [JsonParse.starts_with] in H. destruct (N.eqb_spec x y) as [->|]; [|discriminate H]. cbn [app]. f_equal. apply IH, H.
Qed.
Lemma suffix_only p s x : without_suffix p s = Some x -> s = x ++ p.
Proof.
  unfold without_suffix. destruct (JsonParse.starts_with (rev p) (rev s)) as [r|] eqn:E; [|discriminate]. intro H. injection H as <-. apply starts_with_app in E. apply (f_equal (@rev N)) in E. rewrite rev_involutive, rev_app_distr, rev_involutive in E. exact E.
Qed.
Lemma no_id loc : (forall x, loc <> x ++ u ".abif" /\ loc <> x ++ u ".abif" ++ [10%N]) -> abif_id loc = None.
Proof.
  intro H. unfold abif_id. destruct (without_suffix (u ".abif") loc) as [x|] eqn:E1; [apply suffix_only in E1; destruct (proj1 (H x) E1)|].
  destruct (without_suffix (u ".abif" ++ [10%N]) loc) as [x|] eqn:E2; [apply suffix_only in E2; destruct (proj2 (H x) E2)|reflexivity].
Qed.
Lemma entry_listed sub : sub_ok sub -> exists entry, file_entry sub = Ok entry /\ listed sub entry.
Proof.
  intros ((loc&Hloc)&Htags). destruct sub as [| | | | |o]; try discriminate Hloc. unfold member_is, jmember in *.
  assert (Et : exists tg, (if json_truthy (get "tags" o) then let* l := iter_strs (get "tags" o) in Ok (JStr (join (u ", ") l)) else Ok JNull) = Ok tg /\
     (forall tags, dget (u "tags") o = Some (strings tags) -> tags <> [] -> tg = JStr (join (u ", ") tags)) /\ (dget (u "tags") o = None -> tg = JNull)).
  { unfold get. destruct Htags as [-> | (tags&->)]; cbn [or_default].
    - exists JNull. repeat split; discriminate.
    - destruct tags as [|t0 tags]; [exists JNull; repeat split; try discriminate; intros tags Et Hne; destruct tags; [congruence|discriminate Et]|].
      change (json_truthy (strings (t0 :: tags))) with true. rewrite iter_strings. cbn [bind]. eexists. split; [reflexivity|]. split; [|discriminate].
      intros tags' E _. unfold strings in E. injection E as E. f_equal. f_equal. change (map JStr (t0 :: tags) = map JStr tags') in E. clear - E. revert tags' E. generalize (t0 :: tags) as l. induction l as [|a l IH]; intros [|b l'] E; cbn [map] in E; try discriminate E; [reflexivity|]. injection E as -> E. f_equal. apply IH, E. }
  destruct Et as (tg&Eg&G1&G2).
  set (title := if json_truthy (get "title" o) then get "title" o else opt_jstr (abif_id loc)).
  exists (JObj [(u "filename", JStr loc); (u "id", opt_jstr (abif_id loc)); (u "title", title); (u "tags", tg); (u "desc", get "desc" o)]). split.
  { unfold file_entry, item. rewrite Hloc. cbn [of_option bind]. change (get_of "tags" (JObj o)) with (get "tags" o). rewrite Eg. reflexivity. }
  exists loc. split; [exact Hloc|]. split; [reflexivity|]. split; [|split; [|split; [|split; [|split; [|split; [|split]]]]]].
  - intros name Hne Hp. change (Some (opt_jstr (abif_id loc)) = Some (JStr name)). rewrite (id_found loc name Hne Hp). reflexivity.
  - intro Hx. change (Some (opt_jstr (abif_id loc)) = Some JNull). rewrite (no_id loc Hx). reflexivity.
  - intros t Ht Hne. change (Some title = Some t). unfold title, get. change (dget (u "title") o = Some t) in Ht. rewrite Ht. cbn [or_default]. apply json_truthy_spec in Hne. rewrite Hne. reflexivity.
  - intro Hn. change (Some title = Some (opt_jstr (abif_id loc))). f_equal. unfold title, get. destruct (dget (u "title") o) as [t|] eqn:Ed; [|reflexivity]. cbn [or_default]. destruct (json_truthy t) eqn:Et; [|reflexivity]. destruct (Hn t Ed). apply json_truthy_spec, Et.
  - intros tags Ht Hne. change (Some tg = Some (JStr (join (u ", ") tags))). f_equal. exact (G1 tags Ht Hne).
  - intro Hn. change (Some tg = Some JNull). f_equal. exact (G2 Hn).
  - intros d Hd. change (Some (get "desc" o) = Some d). unfold get. change (dget (u "desc") o = Some d) in Hd. rewrite Hd. reflexivity.
  - intro Hn. change (Some (get "desc" o) = Some JNull). unfold get. change (dget (u "desc") o = None) in Hn. rewrite Hn. reflexivity.
Qed.
(** For a fetchspec of the kind "nameq_archive" the tool prints a list with one entry for each archive entry, in that order. *)
Theorem C77_list : forall s yaml f t spec subs, f <> [] -> s_exists s f = true -> s_read s f = Ok t -> json_loads t = Ok spec ->
  member_is "srcfmt" spec (JStr (u "nameq_archive")) -> member_is "archive_subfiles" spec (JArr subs) -> (forall sub, In sub subs -> sub_ok sub) ->
  exists entries, configtool_main s yaml f = Outcome [f] (yaml (JArr entries) ++ [10%N]) Done /\ Forall2 listed subs entries.
Proof.
  intros s yaml f t spec subs Hf Hx Hr Hj Hs Ha Hok. assert (G : exists entries, mapM file_entry subs = Ok entries /\ Forall2 listed subs entries).
  { clear Ha. induction subs as [|x r IH]; [exists []; split; [reflexivity|constructor]|]. destruct (entry_listed x (Hok x (or_introl eq_refl))) as (e&Ee&He). destruct IH as (es&Ees&Hes); [intros y Hy; apply Hok; right; exact Hy|].
    exists (e :: es). split; [cbn [mapM]; rewrite Ee; cbn [bind]; rewrite Ees; reflexivity|constructor; assumption]. }
  destruct G as (entries&Ee&He). exists entries. split; [|exact He]. destruct spec as [| | | | |o]; try discriminate Hs. unfold member_is, jmember in *.
  unfold configtool_main. destruct f as [|c f]; [congruence|]. rewrite Hx. cbn [negb]. unfold script. rewrite Hr. unfold newdict. rewrite Hj. cbn [bind]. unfold get. rewrite Hs. cbn [or_default].
  change (str_eqb (u "nameq_archive") (u "nameq_archive")) with true. cbv iota. unfold make_nameq_based_file_list. rewrite Ha. cbn [of_option bind]. rewrite Ee. reflexivity.
Qed.
Print Assumptions C77_list.
(** Of any other fetchspec only its srcfmt is printed. *)
Theorem C77_other : forall s yaml f t spec, f <> [] -> s_exists s f = true -> s_read s f = Ok t -> json_loads t = Ok spec -> (exists o, spec = JObj o) ->
  jmember (u "srcfmt") spec <> Some (JStr (u "nameq_archive")) ->
  configtool_main s yaml f = Outcome [f] (yaml (JObj [(u "srcfmt", match jmember (u "srcfmt") spec with Some x => x | None => JNull end)]) ++ [10%N]) Done.
Proof.
  intros s yaml f t spec Hf Hx Hr Hj (o&->) Hn. cbn [jmember] in *. unfold configtool_main. destruct f as [|c f]; [congruence|]. rewrite Hx. cbn [negb]. unfold script. rewrite Hr. unfold newdict. rewrite Hj. cbn [bind]. unfold get.
  destruct (dget (u "srcfmt") o) as [[| | |x| |]|] eqn:E; cbn [or_default]; try reflexivity. destruct (str_eqb_spec x (u "nameq_archive")) as [->|_]; [congruence|reflexivity].
Qed.
Print Assumptions C77_other.
(** A file that is not there ends the program with status 1 after a message; an empty name likewise, because of a missing import. *)
Theorem C77_missing : forall s yaml f, (f <> [] -> s_exists s f = false -> exists e, configtool_main s yaml f = Outcome [] (u "fetchspec '" ++ f ++ u "' not found." ++ [10%N]) (Uncaught e)) /\
  configtool_main s yaml [] = Outcome [] (u "Please provide at least one input file" ++ [10%N]) (Uncaught NameError).
Proof.
  intros s yaml f. split; [|reflexivity]. intros Hf Hx. exists RuntimeError. unfold configtool_main. destruct f; [congruence|]. rewrite Hx. unfold println. cbn [negb]. rewrite <- !app_assoc. reflexivity.
Qed.
Print Assumptions C77_missing.
(** The function that is to give the new tags for an old one takes one it does not know apart into letters. *)
Theorem C77_fix_tag_refuted : fix_tag (u "2022") (u "") = [u "2"; u "0"; u "2"; u "2"].
Proof. vm_compute. reflexivity. Qed.
Print Assumptions C77_fix_tag_refuted.
Lemma alaska_us_spec title : alaska_us title = true <-> exists c d rest, title = u "Alaska-U" ++ c :: u "S" ++ d :: rest /\ c <> 10%N /\ d <> 10%N.
Proof.
  unfold alaska_us. split.
  - intro H. destruct (JsonParse.starts_with (u "Alaska-U") title) as [r|] eqn:E; [|discriminate]. assert (Et : title = u "Alaska-U" ++ r).
    { revert E. clear. generalize (u "Alaska-U"). intro p. revert title. induction p as [|x p IH]; intros [|y t] E; cbn in E; try discriminate; try (injection E as <-; reflexivity). destruct (N.eqb_spec x y) as [->|]; [|discriminate]. cbn. f_equal. apply IH, E. }
    destruct r as [|c [|s [|d rest]]]; try discriminate.
    { exfalso. revert H. clear. destruct s as [|q]; [discriminate|]. do 7 (destruct q as [q|q|]; try discriminate). }
    assert (Es : s = 83%N) by (destruct (N.eqb_spec s 83); [assumption|exfalso; revert H; clear -n; destruct s as [|q]; [discriminate|]; do 7 (destruct q as [q|q|]; try discriminate); congruence]). subst s. apply andb_prop in H as (H1&H2).
    exists c, d, rest. split; [exact Et|]. destruct (N.eqb_spec c 10), (N.eqb_spec d 10); try discriminate; auto.
  - intros (c&d&rest&->&H1&H2). assert (E : JsonParse.starts_with (u "Alaska-U") (u "Alaska-U" ++ c :: u "S" ++ d :: rest) = Some (c :: u "S" ++ d :: rest)) by reflexivity. rewrite E. cbn. destruct (N.eqb_spec c 10), (N.eqb_spec d 10); try contradiction. reflexivity.
Qed.
Lemma fix_tag_alaska rest title : let tags := fix_tag (u "Alaska" ++ rest) title in
  In (u "AK") tags /\ (forall x, In x tags -> x = u "AK" \/ x = u "federal" \/ x = u "local" \/ x = u "mayor") /\
  (In (u "federal") tags <-> exists c d after, title = u "Alaska-U" ++ c :: u "S" ++ d :: after /\ c <> 10%N /\ d <> 10%N) /\ (In (u "local") tags <-> ~ In (u "federal") tags).
Proof.
  cbv zeta. rewrite <- alaska_us_spec. unfold fix_tag. change (starts "Alaska" (u "Alaska" ++ rest)) with true. cbn [andb].
  assert (M : forall (b : bool) x l, In x ((if b then [u "mayor"] else []) ++ l) <-> (b = true /\ x = u "mayor") \/ In x l) by (intros b x l; rewrite in_app_iff; destruct b; cbn; intuition congruence).
  destruct (alaska_us title); cbv iota; repeat split; repeat rewrite !M; cbn [In]; try (intros x; rewrite M; cbn [In]; intuition congruence); intuition (try discriminate; try congruence).
Qed.
(** The tags it does know: the state, and the county or city; for Alaska, whether the title names a federal election. *)
Theorem C77_fix_tag : forall rest title,
  (forall p ts, In (p, ts) [("AlamedaCounty", ["CA"; "AlamedaCounty_CA"]); ("SanFrancisco", ["CA"; "SanFrancisco_CA"; "SF"]); ("san_francisco", ["CA"; "SanFrancisco_CA"; "SF"]);
      ("san_leandro", ["CA"; "SanLeandro_CA"]); ("oakland", ["CA"; "Oakland_CA"]); ("Maine", ["ME"]); ("ME_Primary", ["ME"; "primary_election"]); ("Portland_ME", ["ME"; "Portland_ME"]);
      ("Minneapolis", ["MN"; "Minneapolis_MN"]); ("NYC", ["NY"; "NYC_NY"]); ("Burlington_VT", ["VT"; "Burlington_VT"]); ("Pierce_WA", ["WA"; "PierceCounty_WA"])]%string ->
     (forall x, In x (fix_tag (u p ++ rest) title) -> In x (map u ts) \/ x = u "mayor") /\ incl (map u ts) (fix_tag (u p ++ rest) title)) /\
  (let tags := fix_tag (u "Alaska" ++ rest) title in
   In (u "AK") tags /\ (forall x, In x tags -> x = u "AK" \/ x = u "federal" \/ x = u "local" \/ x = u "mayor") /\
   (In (u "federal") tags <-> exists c d after, title = u "Alaska-U" ++ c :: u "S" ++ d :: after /\ c <> 10%N /\ d <> 10%N) /\ (In (u "local") tags <-> ~ In (u "federal") tags)).
Proof.
  assert (M : forall (b : bool) x l, In x ((if b then [u "mayor"] else []) ++ l) -> In x l \/ x = u "mayor") by (intros b x l H; apply in_app_or in H as [H|H]; [destruct b; [destruct H as [<-|[]]; right; reflexivity|destruct H]|left; exact H]).
  intros rest title. split.
  - intros p ts Hp. split; [intros x Hx|intros x Hx; unfold fix_tag; apply in_or_app; right; repeat (destruct Hp as [Hp|Hp]; [injection Hp as <- <-; exact Hx|]); destruct Hp]. unfold fix_tag in Hx. apply M in Hx as [Hx|Hx]; [left|right; exact Hx]. repeat (destruct Hp as [Hp|Hp]; [injection Hp as <- <-; exact Hx|]). destruct Hp.
  - apply fix_tag_alaska.
Qed.
Print Assumptions C77_fix_tag.

(** ** Examples *)
Definition two_files : surroundings :=
  Surroundings (fun f => str_eqb f (u "x.abif") || str_eqb f (u "y.json") || str_eqb f (u "z.json"))
    (fun f => if str_eqb f (u "x.abif") then Ok (u "5:A/5>B/3>C/0" ++ [10%N] ++ u "4:B/5>A/1>C/0" ++ [10%N] ++ u "2:C/4")
              else if str_eqb f (u "y.json") then
                match convert_abif_to_jabmod (u "5:A/5>B/3>C/0" ++ [10%N] ++ u "4:B/5>A/1>C/0" ++ [10%N] ++ u "2:C/4") false false false with Ok m => Ok (dumps_indent 4 (json_of_jabmod m) ++ [10%N]) | Err e => Err e end
              else if str_eqb f (u "z.json") then
                Ok (dumps_indent 2 (JObj [(u "srcfmt", JStr (u "nameq_archive")); (u "archive_subfiles", JArr [JObj [(u "abifloc", JStr (u "local/a/b.abif")); (u "tags", strings [u "oakland"; u "2022"])]; JObj [(u "abifloc", JStr (u "c.txt")); (u "title", JStr (u "T"))]])]))
              else Err FileNotFoundError)
    (Err OSError) (fun x => x) (Oracle (fun _ => O) (fun _ l => l)).
Example C76_sample : reads_abif two_files (cli_args "text" ["candlist"; "IRV"]%string) (u "x.abif") (u "5:A/5>B/3>C/0" ++ [10%N] ++ u "4:B/5>A/1>C/0" ++ [10%N] ++ u "2:C/4") /\
  plain (cli_args "text" ["candlist"; "IRV"]%string) /\ (forall x, In x (modifiers (cli_args "text" ["candlist"; "IRV"]%string)) <-> x = u "candlist" \/ x = u "IRV") /\
  o_ending (irvtally_main two_files cli_render false (u "x.abif")) = Done /\ (100 < length (o_stdout (irvtally_main two_files cli_render false (u "x.abif"))))%nat /\
  o_ending (irvtally_main two_files cli_render true (u "x.abif")) = Done /\
  o_ending (scorestar_main two_files (fun _ => []) (u "x.abif")) = Done /\ o_ending (html_scorestar_main two_files (fun _ => []) (u "x.abif")) = Done /\
  o_ending (html_pairwise_main two_files cli_render (u "y.json")) = Done /\ o_ending (copedot_main two_files cli_render (u "json") (u "x.abif")) = Done /\
  o_stdout (core_main (fun _ => []) (u "pref_to_dict") [u "A>B"]) = dumps_indent 4 (JObj [(u "prefs", JObj [(u "A", JObj [(u "rank", JInt 1); (u "nextdelim", JStr (u ">"))]); (u "B", JObj [(u "rank", JInt 2)])]); (u "cands", strings [u "A"; u "B"])]) ++ [10%N].
Proof.
  split; [repeat split; discriminate|]. split; [repeat split; cbn; intuition discriminate|]. split; [intro x; cbn; intuition|]. split; [vm_compute; reflexivity|].
  split; [apply Nat.ltb_lt; vm_compute; reflexivity|]. repeat (split; [vm_compute; reflexivity|]). vm_compute. reflexivity.
Qed.
Example C76_pipe_sample : exists stdout, main two_files cli_render (cli_args "jabmod" []) = Outcome [u "x.abif"] stdout Done /\
  reads_as two_files (Args [u "y.json"] (Some (u "jabmod")) (u "irvjson") None 160 false false) "jabmod" (u "y.json") (saved stdout) /\
  o_stdout (main two_files cli_render (Args [u "y.json"] (Some (u "jabmod")) (u "irvjson") None 160 false false)) = o_stdout (main two_files cli_render (cli_args "irvjson" [])).
Proof. eexists. split; [vm_compute; reflexivity|]. split; [repeat split; try discriminate; vm_compute; reflexivity|vm_compute; reflexivity]. Qed.
Example C77_sample : configtool_main two_files (fun j => dumps_indent 0 j) (u "z.json") = Outcome [u "z.json"]
   (dumps_indent 0 (JArr [JObj [(u "filename", JStr (u "local/a/b.abif")); (u "id", JStr (u "b")); (u "title", JStr (u "b")); (u "tags", JStr (u "oakland, 2022")); (u "desc", JNull)];
                          JObj [(u "filename", JStr (u "c.txt")); (u "id", JNull); (u "title", JStr (u "T")); (u "tags", JNull); (u "desc", JNull)]]) ++ [10%N]) Done.
Proof. vm_compute. reflexivity. Qed.
From Verif Require Import ImportSpec PropsImport.
Example C76_importer_sample :
  let s := Surroundings (fun _ => true) (fun f => if str_eqb f (u "p.soi") then Ok (pl_file pl_demo) else match convert_preflib_str_to_abif (pl_file pl_demo) with Ok t => Ok (t ++ [10%N]) | Err e => Err e end) (Err OSError) (fun x => x) (Oracle (fun _ => O) (fun _ l => l)) in
  let a := Args [u "p.soi"] (Some (u "preflib")) (u "irvjson") None 160 false false in let a' := Args [u "q.abif"] None (u "irvjson") None 160 false false in
  exists stdout, preflib_main s (u "p.soi") = Outcome [u "p.soi"] stdout Done /\ reads_as s a "preflib" (u "p.soi") (pl_file pl_demo) /\ reads_as s a' "abif" (u "q.abif") (saved stdout) /\
    o_ending (main s cli_render a) = Done /\ o_stdout (main s cli_render a) = o_stdout (main s cli_render a').
Proof. cbv zeta. eexists. split; [vm_compute; reflexivity|]. repeat split; try discriminate; vm_compute; reflexivity. Qed.
