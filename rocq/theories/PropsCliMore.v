(** * PropsCliMore: C73-C75 for a whole run of the command line tool *)

From Coq Require Import Lia Permutation.
From Verif Require Import PyBase PyFacts Jabmod PairwiseModel Spec PairwiseFacts PropsPairwise ScoreModel ScoreFacts PropsScore IrvModel IrvFacts IrvStrict IrvTrace IrvCriteria PropsIrv.
From Verif Require Import ParserModel ParserFacts PropsParser DiagramModel PropsDiagram.
From Verif Require Import JsonText JsonFacts JsonParse JsonParseFacts JabmodJson PropsJson ResultsJson PropsResults HtmlModel PropsHtml CliModel PropsCli.
Local Open Scope Z_scope.

(** The tool is run on one ABIF file f with the text t, which is read as m and not consolidated. *)
Definition runs_on (s : surroundings) (a : args) (f t : str) (m : jabmod) : Prop :=
  reads_abif s a f t /\ ~ In (u "consolidate") (modifiers a) /\ Z.of_nat (length t) <= maxsize /\
  convert_abif_to_jabmod t (a_cleanws a) (a_add_scores a) (memb (u "jcomments") (modifiers a)) = Ok m.
Lemma runs_prints s rn a f t m out : runs_on s a f t m -> render s rn (a_to a) (a_width a) (modifiers a) m = Ok out -> main s rn a = Outcome [f] (out ++ [10%N]) Done.
Proof. intros (R&Hc&_&Em) E. apply (run_abif s rn a f t m); [exact R|exact Em|]. apply memb_nIn in Hc. rewrite Hc. exact E. Qed.
Lemma has_true m mods : In (u m) mods -> has m mods = true. Proof. intro H. apply memb_In, H. Qed.
Lemma has_false m mods : ~ In (u m) mods -> has m mods = false. Proof. intro H. apply memb_nIn, H. Qed.

(** -t irvjson, and -m IRV with -t json or paircountjson: what is printed is JSON with the result of the count. *)
Theorem C73_cli_irv : forall s rn a f t m, runs_on s a f t m ->
  a_to a = u "irvjson" \/ (a_to a = u "json" \/ a_to a = u "paircountjson") /\ In (u "IRV") (modifiers a) ->
  cands m <> [] -> (forall c n, In (c, n) (j_candidates m) -> text c /\ text n) -> schedule (s_irv s) -> (forall l, Permutation (r_set_order rn l) l) ->
  exists out d j, main s rn a = Outcome [f] (out ++ [10%N]) Done /\ IRV_dict_from_jabmod (s_irv s) m = Ok d /\ json_loads out = Ok j /\
    member_is "winner" j (strings (ir_winner d)) /\ member_is "winnerstr" j (JStr (ir_winnerstr d)) /\ member_is "has_tie" j (JBool (ir_has_tie d)).
Proof.
  intros s rn a f t m R Ht Hne Htx Ho Hs. pose proof R as (_&_&Hlen&Em). destruct (C36_parsed_is_tallyable _ _ _ _ _ Em Hlen) as (_&_&_&Hi). specialize (Hi Hne).
  destruct (C16_irv_always_answers _ m Ho Hi) as (d&_&Ed&_). destruct (C73_irv_json _ (r_set_order rn) m d Ho Hs Hi Htx Ed) as (j&nm&rs&ms&Hj&_&_&_&H1&H2&H3&_).
  exists (dumps_indent 4 (json_of_irv (r_set_order rn) d)), d, j. split; [|auto]. apply (runs_prints s rn a f t m); [exact R|].
  destruct Ht as [->|([->| ->]&Hm)]; unfold render; cbn [str_eqb u N.eqb N_of_ascii orb]; rewrite ?(has_true _ _ Hm), Ed; reflexivity.
Qed.
Print Assumptions C73_cli_irv.

(** -t json -m STAR: the candidates by score, the finalists f1 and f2 and the winner of the runoff. *)
Theorem C73_cli_star : forall s rn a f t m, runs_on s a f t m -> a_to a = u "json" -> In (u "STAR") (modifiers a) -> ~ In (u "IRV") (modifiers a) -> ~ In (u "pairwise") (modifiers a) ->
  (2 <= length (cands m))%nat -> (forall c n, In (c, n) (j_candidates m) -> text c /\ text n) ->
  exists out j f1 f2 n1 n2 rest, main s rn a = Outcome [f] (out ++ [10%N]) Done /\ json_loads out = Ok j /\
    score_members m (zsum (map v_qty (j_votelines m))) (f1 :: f2 :: rest) j /\ dget f1 (j_candidates m) = Some n1 /\ dget f2 (j_candidates m) = Some n2 /\
    member_is "fin1votes" j (JInt (votes_over m f1 f2)) /\ member_is "fin2votes" j (JInt (votes_over m f2 f1)) /\
    member_is "winner" j (JStr (if votes_over m f2 f1 <? votes_over m f1 f2 then n1 else if votes_over m f1 f2 <? votes_over m f2 f1 then n2 else u "tie " ++ n1 ++ u " and " ++ n2)).
Proof.
  intros s rn a f t m R Et H1 H2 H3 Hlen Htx. pose proof R as (_&_&Hl&Em). destruct (C36_parsed_is_tallyable _ _ _ _ _ Em Hl) as (Ht&Hs&_&_). pose proof (C28_ballotcount _ _ _ _ _ Em) as Hb.
  destruct (proj1 (C12_star_total m _ Hs Ht Hb) Hlen) as (st&Es). destruct (C73_star_json m _ st Hs Ht Htx Hb Es) as (j&f1&f2&n1&n2&rest&Hj&Hsm&Hn1&Hn2&_&_&_&_&_&V1&V2&_&Hw).
  exists (dumps_indent 4 (json_of_star st)), j, f1, f2, n1, n2, rest. split; [|auto 10].
  apply (runs_prints s rn a f t m); [exact R|]. rewrite Et. unfold render; cbn [str_eqb u N.eqb N_of_ascii orb]. rewrite (has_false _ _ H2), (has_false _ _ H3), (has_true _ _ H1), Es. reflexivity.
Qed.
Print Assumptions C73_cli_star.

(** -t json without one of these modifiers prints a sentence, which is not JSON. *)
Theorem C73_cli_json_refuted : forall s rn a f t m, runs_on s a f t m -> a_to a = u "json" -> a_modifier a = None ->
  exists out, main s rn a = Outcome [f] (out ++ [10%N]) Done /\ json_loads out = Err ValueError.
Proof.
  intros s rn a f t m R Et Hn. exists (u "Please specify modifier or choose 'jabmod' output format"). split; [|vm_compute; reflexivity].
  apply (runs_prints s rn a f t m); [exact R|]. rewrite Et. unfold modifiers. rewrite Hn. reflexivity.
Qed.
Print Assumptions C73_cli_json_refuted.

(** -t html, and -t html_snippet without -m svg: the page shows title and description, every candidate with its record and both votes of
    every contest, and every tag is one of the program's own, whatever is in the names. *)
Theorem C74_cli_html : forall s rn a f t m, runs_on s a f t m -> a_to a = u "html" \/ (a_to a = u "html_snippet" /\ ~ In (u "svg") (modifiers a)) ->
  (forall doc, pretty (flat_map pieces doc) (r_soup rn doc)) ->
  exists page, main s rn a = Outcome [f] (page ++ [10%N]) Done /\
    shown (json_fstr (get_abif_desc m)) page /\ (a_to a = u "html" -> shown (get_title_for_html m) page) /\
    (forall x y, In x (cands m) -> In y (cands m) -> x <> y -> shown (x ++ u ": " ++ z2s (votes_over m x y)) page) /\
    (forall c, In c (cands m) -> shown (u "(" ++ z2s (wins (record m c)) ++ u "-" ++ z2s (losses (record m c)) ++ u "-" ++ z2s (ties (record m c)) ++ u ")") page) /\
    (forall tag, In tag (tags page) -> own_tag tag).
Proof.
  intros s rn a f t m R Et Hp. pose proof R as (_&_&Hl&Em). destruct (C36_parsed_is_tallyable _ _ _ _ _ Em Hl) as (Ht&_&_&_). destruct (C74_page m Ht) as (rows&flag&E&G).
  set (snippet := negb (str_eqb (a_to a) (u "html"))). specialize (Hp (html_page m snippet None (rows, flag))). set (page := r_soup rn _) in Hp. exists page.
  destruct (G snippet page Hp) as (T1&T2). destruct (C74_results_shown m rows flag snippet page Ht E Hp) as (S1&S2&_).
  split; [|split; [|split; [|split; [exact S1|split; [|exact T2]]]]].
  - apply (runs_prints s rn a f t m); [exact R|]. unfold page, snippet. destruct Et as [->|(->&Hs)]; unfold render; cbn [str_eqb u N.eqb N_of_ascii orb negb].
    + rewrite E. reflexivity.
    + destruct (C05_copecount_total m Ht) as (cc&->). rewrite (has_false _ _ Hs). cbn [bind]. rewrite E. reflexivity.
  - apply (shown_in _ _ _ T1). apply in_or_app. right. left. reflexivity.
  - intro Eh. apply (shown_in _ _ _ T1). unfold snippet. rewrite Eh. left. reflexivity.
  - intros c Hc. specialize (S2 c Hc). unfold wlt_text in S2. rewrite <- !app_assoc in S2. exact S2.
Qed.
Print Assumptions C74_cli_html.

(** -t text -m winlosstie and -m pairwise: the tables of C57, drawn by texttable and retouched as in C75. *)
Theorem C75_cli_tables : forall s rn a f t m, runs_on s a f t m -> a_to a = u "text" -> forall width table,
  (a_modifier a = Some [u "winlosstie"] /\ texttable_rows m = Ok table /\ width = 80) \/
  (a_modifier a = Some [u "pairwise"] /\ width = a_width a /\ exists pm, pairwise_count_dict m = Ok pm /\ table = textgrid_rows pm) ->
  main s rn a = match table_text (r_draw rn width table) with Ok out => Outcome [f] (out ++ [10%N]) Done | Err e => Outcome [f] [] (Uncaught e) end.
Proof.
  intros s rn a f t m R Et width table H.
  assert (Er : render s rn (a_to a) (a_width a) (modifiers a) m = table_text (r_draw rn width table)).
  { rewrite Et. unfold modifiers. destruct H as [(Em&E&->)|(Em&->&pm&E&->)]; rewrite Em.
    - change (render s rn (u "text") (a_width a) [u "winlosstie"] m) with (bind (bind (texttable_rows m) (fun t => table_text (r_draw rn 80 t))) (fun x => Ok (x ++ []))). rewrite E. cbn [bind]. destruct (table_text _); cbn [bind]; [rewrite app_nil_r|]; reflexivity.
    - change (render s rn (u "text") (a_width a) [u "pairwise"] m) with (bind (bind (pairwise_count_dict m) (fun p => table_text (r_draw rn (a_width a) (textgrid_rows p)))) (fun x => Ok (x ++ []))). rewrite E. cbn [bind]. destruct (table_text _); cbn [bind]; [rewrite app_nil_r|]; reflexivity. }
  destruct (table_text _) as [out|e] eqn:Eo; [apply (runs_prints s rn a f t m); assumption|].
  destruct R as ((El&Hd&Hx&Hr&Hf)&Hc&_&Em). unfold main. rewrite Hf. change (memb (u "abif") validinfmts) with true. cbn [negb].
  unfold read_input. rewrite El. destruct (str_eqb_spec f dash); [congruence|]. cbn [read_files]. rewrite Hx, Hr. cbn [app].
  rewrite unnamed_abif. cbn [render_as]. unfold load. change (str_eqb (u "abif") (u "abif")) with true. unfold has at 1. rewrite Em. apply memb_nIn in Hc. unfold has at 1. rewrite Hc, Er. reflexivity.
Qed.
Print Assumptions C75_cli_tables.

Definition more_files : surroundings := Surroundings (fun f => str_eqb f (u "x.abif")) (fun _ => Ok (u "5:B/5>A/3=C/3" ++ [10%N] ++ u "2:A/4>C/1")) (Err OSError) (fun x => x) (Oracle (fun _ => O) (fun _ l => l)).
Example C73_cli_nonvacuous : exists m, runs_on more_files (cli_args "irvjson" []) (u "x.abif") (u "5:B/5>A/3=C/3" ++ [10%N] ++ u "2:A/4>C/1") m /\ (2 <= length (cands m))%nat /\
  schedule (s_irv more_files) /\ (forall l, Permutation (r_set_order cli_render l) l) /\ (forall doc, pretty (flat_map pieces doc) (r_soup cli_render doc)) /\
  (match json_loads (o_stdout (main more_files cli_render (cli_args "irvjson" []))) with Ok j => jmember (u "winner") j | Err _ => None end) = Some (strings [u "B"]) /\
  (match json_loads (o_stdout (main more_files cli_render (cli_args "json" ["STAR"%string]))) with Ok j => jmember (u "winner") j | Err _ => None end) = Some (JStr (u "B")) /\
  texts (o_stdout (main more_files cli_render (cli_args "html_snippet" []))) =
    [u "Candidate matchups for B, A, C"; u "B"; u "(2-0-0)"; u "B victories"; [8595%N]; u "B is undefeated"; u "A"; u "(1-1-0)"; u "A victories"; [8595%N]; u "B: 5"; u "A: 2"; [8592%N] ++ u " A losses";
     u "C"; u "(0-2-0)"; u "A: 2"; u "C: 0"; u "B: 5"; u "C: 2"; [8592%N] ++ u " C losses"].
Proof.
  eexists. split; [split; [repeat split; discriminate|]; split; [cbn; intuition discriminate|]; split; [vm_compute; discriminate|vm_compute; reflexivity]|].
  split; [cbn; lia|]. split; [intros n l; apply Permutation_refl|]. split; [intro l; apply Permutation_refl|]. split; [intro doc; apply soup_pretty|]. vm_compute. auto.
Qed.
