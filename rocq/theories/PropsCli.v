(** * PropsCli: C61, the command line *)

From Coq Require Import Lia Permutation.
From Verif Require Import PyBase PyFacts Jabmod PairwiseModel Spec PropsPairwise ScoreModel IrvModel ParserModel WriterModel NameqModel DebtallyModel PreflibModel SftxtModel DiagramModel ResultsJson HtmlModel.
From Verif Require Import JsonText JsonFacts JsonParse JsonParseFacts JabmodJson PropsJson ConvertModel CliModel ConsolidateFacts PropsConvert.
Local Open Scope Z_scope.
Local Open Scope res_scope.

(** ** Which format is read *)
Lemma after_last_dot_app stem ext : ~ In 46%N ext -> after_last_dot (stem ++ 46%N :: ext) = Some ext.
Proof.
  intro H. induction stem as [|c r IH]; cbn [app after_last_dot]; [|rewrite IH; reflexivity].
  assert (E : after_last_dot ext = None). { induction ext as [|d ext IH]; [reflexivity|]. cbn [after_last_dot]. rewrite IH by (intro Hi; apply H; right; exact Hi). destruct (N.eqb_spec d 46); [exfalso; apply H; left; assumption|reflexivity]. }
  rewrite E. reflexivity.
Qed.
Lemma after_last_dot_none s : ~ In 46%N s -> after_last_dot s = None.
Proof.
  intro H. induction s as [|d s IH]; [reflexivity|]. cbn [after_last_dot]. rewrite IH by (intro Hi; apply H; right; exact Hi). destruct (N.eqb_spec d 46); [exfalso; apply H; left; assumption|reflexivity].
Qed.
(** -f decides; otherwise what follows the last '.' of the first file name; otherwise 'abif'. *)
Theorem C61_format : forall a,
  (forall f, a_fromfmt a = Some f -> input_format a = Ok f) /\
  (forall stem ext more, a_fromfmt a = None -> a_input_file a = (stem ++ [46%N] ++ ext) :: more -> ~ In 46%N ext -> input_format a = Ok ext) /\
  (forall name more, a_fromfmt a = None -> a_input_file a = name :: more -> ~ In 46%N name -> input_format a = Ok (u "abif")).
Proof.
  intro a. unfold input_format. split; [|split].
  - intros f ->. reflexivity.
  - intros stem ext more -> -> H. cbn [nth_error of_option bind app]. rewrite after_last_dot_app by exact H. reflexivity.
  - intros name more -> -> H. cbn [nth_error of_option bind]. rewrite after_last_dot_none by exact H. reflexivity.
Qed.
Print Assumptions C61_format.
(** A format that is not supported is reported and nothing is read. *)
Theorem C61_unsupported : forall s rn a fmt, input_format a = Ok fmt -> ~ In fmt validinfmts ->
  main s rn a = Outcome [] (u "Error: Unsupported input format '" ++ fmt ++ u "'" ++ [10%N]) Done.
Proof.
  intros s rn a fmt E H. unfold main. rewrite E. apply memb_nIn in H. rewrite H. cbn [negb]. unfold println. rewrite <- !app_assoc. reflexivity.
Qed.
Print Assumptions C61_unsupported.
(** Standard input without -f is not refused, as the option's help says, but read as ABIF. *)
Theorem C61_dash_needs_format_refuted : exists a, a_fromfmt a = None /\ a_input_file a = [dash] /\ forall s rn t, s_stdin s = Ok t ->
  o_reads (main s rn a) = [dash] /\ input_format a = Ok (u "abif").
Proof.
  exists (Args [dash] None (u "abif") None 160 false false). split; [reflexivity|]. split; [reflexivity|]. intros s rn t Hs. split; [|reflexivity].
  unfold main, input_format, read_input. cbn [a_fromfmt a_input_file nth_error of_option bind]. change (after_last_dot dash) with (@None str). cbn match. change (memb (u "abif") validinfmts) with true. cbn [negb]. rewrite (str_eqb_refl dash), Hs.
  destruct (load _ _ _ _ _) as [m|e]; [|reflexivity]. destruct (render_as _ _ _ _ _ _ _); reflexivity.
Qed.
Print Assumptions C61_dash_needs_format_refuted.

(** ** What is read *)
Lemma last_default {A} (l : list A) : forall y d d', last (y :: l) d = last (y :: l) d'.
Proof. induction l as [|z l IH]; intros y d d'; [reflexivity|]. change (last (z :: l) d = last (z :: l) d'). apply IH. Qed.
Lemma read_files_all s l : forall i b r texts, Forall2 (fun f t => s_exists s f = true /\ s_read s f = Ok t) l texts ->
  read_files s l i b r = (r ++ l, Got (last texts i) (b ++ texts)).
Proof.
  induction l as [|f l IH]; intros i b r texts H; inversion H as [|x t xs ts [H1 H2] H3]; subst; cbn [read_files]; [rewrite !app_nil_r; reflexivity|].
  rewrite H1, H2, (IH t (b ++ [t]) (r ++ [f]) ts H3), <- !app_assoc. do 2 f_equal. destruct ts as [|y ts]; [reflexivity|]. exact (last_default ts y i t) || exact (last_default ts y t i).
Qed.
(** The files are opened in order up to the first one that is missing; then the program says so and stops,
    without converting or printing anything else. *)
Theorem C61_missing_file : forall s rn a fmt before f after texts, input_format a = Ok fmt -> In fmt validinfmts ->
  a_input_file a = before ++ f :: after -> a_input_file a <> [dash] ->
  Forall2 (fun g t => s_exists s g = true /\ s_read s g = Ok t) before texts -> s_exists s f = false ->
  main s rn a = Outcome before (u "The file '" ++ f ++ u "' doesn't exist." ++ [10%N]) Exited.
Proof.
  intros s rn a fmt before f after texts E Hf El Hd HF Hx. unfold main. rewrite E. apply memb_In in Hf. rewrite Hf. cbn [negb].
  assert (Er : read_input s a = read_files s (a_input_file a) [] [] []).
  { unfold read_input. destruct (a_input_file a) as [|g [|? ?]]; try reflexivity. destruct (str_eqb_spec g dash); [congruence|reflexivity]. }
  assert (G : forall i b r, read_files s (before ++ f :: after) i b r = (r ++ before, Missing f)).
  { clear - HF Hx. induction HF as [|g t gs ts [H1 H2] H3 IH]; intros i b r; cbn [app read_files]; [rewrite Hx, app_nil_r; reflexivity|]. rewrite H1, H2, IH, <- app_assoc. reflexivity. }
  rewrite Er, El, G. cbn [app]. unfold println. rewrite <- !app_assoc. reflexivity.
Qed.
Print Assumptions C61_missing_file.
(** A run that could not read its input still reports success to the shell. *)
Theorem C61_failure_status_refuted : exists s rn a, accepted a /\ o_reads (main s rn a) = [] /\ exit_status (o_ending (main s rn a)) = 0 /\
  o_stdout (main s rn a) = u "The file 'x.abif' doesn't exist." ++ [10%N].
Proof.
  exists (Surroundings (fun _ => false) (fun _ => Err OSError) (Err OSError) (fun x => x) (Oracle (fun _ => O) (fun _ l => l))),
         (Rendering (fun _ _ => []) (fun _ => []) soup_str (fun _ _ => []) (fun l => l)), (Args [u "x.abif"] None (u "text") None 160 false false).
  split; [|vm_compute; auto]. split; [discriminate|]. split; [intros f H; discriminate H|]. split; [apply memb_In; reflexivity|]. intros ms H. discriminate H.
Qed.
Print Assumptions C61_failure_status_refuted.

Lemma unnamed_other fmt t blobs : fmt <> u "sftxt" -> fmt <> u "jabmod" -> unnamed fmt t blobs = [].
Proof. intros H H'. unfold unnamed. destruct (str_eqb_spec fmt (u "sftxt")); [congruence|]. destruct (str_eqb_spec fmt (u "jabmod")); [congruence|reflexivity]. Qed.
Lemma unnamed_blobs fmt t b b' : fmt <> u "sftxt" -> unnamed fmt t b = unnamed fmt t b'.
Proof. intro H. unfold unnamed. destruct (str_eqb_spec fmt (u "sftxt")); [congruence|reflexivity]. Qed.
Lemma unnamed_abif t blobs : unnamed (u "abif") t blobs = [].
Proof. reflexivity. Qed.
(** Everything printed comes from the last file: for all formats but sftxt, giving several files is the same as giving the
    last one alone (with the format of the first).  *)
Theorem C61_last_file : forall s rn a fmt files f texts t, input_format a = Ok fmt -> fmt <> u "sftxt" ->
  a_input_file a = files ++ [f] -> a_input_file a <> [dash] -> f <> dash ->
  Forall2 (fun g x => s_exists s g = true /\ s_read s g = Ok x) files texts -> s_exists s f = true -> s_read s f = Ok t ->
  let a1 := Args [f] (Some fmt) (a_to a) (a_modifier a) (a_width a) (a_cleanws a) (a_add_scores a) in
  o_stdout (main s rn a) = o_stdout (main s rn a1) /\ o_ending (main s rn a) = o_ending (main s rn a1).
Proof.
  intros s rn a fmt files f texts t E Hfmt El Hd Hfd HF Hx Ht a1.
  assert (Er : read_input s a = (files ++ [f], Got t (texts ++ [t]))).
  { assert (Er : read_input s a = read_files s (a_input_file a) [] [] []).
    { unfold read_input. destruct (a_input_file a) as [|g [|? ?]]; try reflexivity. destruct (str_eqb_spec g dash); [congruence|reflexivity]. }
    rewrite Er, El. rewrite (read_files_all s (files ++ [f]) [] [] [] (texts ++ [t])); [rewrite last_last; reflexivity|]. apply Forall2_app; [exact HF|]. constructor; [split; assumption|constructor]. }
  assert (Er1 : read_input s a1 = ([f], Got t [t])).
  { unfold read_input, a1. cbn [a_input_file]. destruct (str_eqb_spec f dash); [congruence|]. cbn [read_files]. rewrite Hx, Ht. reflexivity. }
  assert (E1 : input_format a1 = Ok fmt) by reflexivity.
  assert (Hl : forall b b', load s a fmt t b = load s a1 fmt t b').
  { intros b b'. unfold load. destruct (str_eqb_spec fmt (u "sftxt")); [congruence|]. reflexivity. }
  unfold main. rewrite E, E1, Er, Er1. destruct (negb (memb fmt validinfmts)); [split; reflexivity|]. rewrite (Hl (texts ++ [t]) [t]). rewrite (unnamed_blobs fmt t (texts ++ [t]) [t] Hfmt).
  destruct (load s a1 fmt t [t]) as [m|e]; [|split; reflexivity]. change (modifiers a1) with (modifiers a). change (a_to a1) with (a_to a). change (a_width a1) with (a_width a). destruct (render_as _ _ _ _ _ _ _); split; reflexivity.
Qed.
Print Assumptions C61_last_file.
(** So the ballots of the other files are not counted. *)
Theorem C61_all_files_refuted : exists s rn a, accepted a /\ o_reads (main s rn a) = [u "one.abif"; u "two.abif"] /\
  s_read s (u "one.abif") = Ok (u "5:A>B") /\ s_read s (u "two.abif") = Ok (u "3:B>A") /\
  o_stdout (main s rn a) = u "#------- metadata -------" ++ [10%N] ++ u "{ballotcount: 3}" ++ [10%N] ++ u "#------ candlines ------" ++ [10%N]
    ++ u "=B:[B]" ++ [10%N] ++ u "=A:[A]" ++ [10%N] ++ u "#------- votelines ------" ++ [10%N] ++ u "3:B>A" ++ [10%N; 10%N].
Proof.
  exists (Surroundings (fun _ => true) (fun f => if str_eqb f (u "one.abif") then Ok (u "5:A>B") else Ok (u "3:B>A")) (Err OSError) (fun x => x) (Oracle (fun _ => O) (fun _ l => l))),
         (Rendering (fun _ _ => []) (fun _ => []) soup_str (fun _ _ => []) (fun l => l)), (Args [u "one.abif"; u "two.abif"] None (u "abif") None 160 false false).
  split; [|vm_compute; auto]. split; [discriminate|]. split; [intros f H; discriminate H|]. split; [apply memb_In; reflexivity|]. intros ms H. discriminate H.
Qed.
Print Assumptions C61_all_files_refuted.
(** Standard input gives what a file with that text gives, except that sftxt, which wants two files, fails. *)
Theorem C61_stdin : forall s rn a f fmt t, a_input_file a = [dash] -> a_fromfmt a = Some fmt -> s_stdin s = Ok t -> f <> dash -> s_exists s f = true -> s_read s f = Ok t -> fmt <> u "sftxt" ->
  let a1 := Args [f] (Some fmt) (a_to a) (a_modifier a) (a_width a) (a_cleanws a) (a_add_scores a) in
  o_stdout (main s rn a) = o_stdout (main s rn a1) /\ o_ending (main s rn a) = o_ending (main s rn a1).
Proof.
  intros s rn a f fmt t El Ef Hs Hfd Hx Ht Hfmt a1.
  assert (E : input_format a = Ok fmt) by (unfold input_format; rewrite Ef; reflexivity). assert (E1 : input_format a1 = Ok fmt) by reflexivity.
  assert (Er : read_input s a = ([dash], Got t [])). { unfold read_input. rewrite El, str_eqb_refl, Hs. reflexivity. }
  assert (Er1 : read_input s a1 = ([f], Got t [t])).
  { unfold read_input, a1. cbn [a_input_file]. destruct (str_eqb_spec f dash); [congruence|]. cbn [read_files]. rewrite Hx, Ht. reflexivity. }
  assert (Hl : load s a fmt t [] = load s a1 fmt t [t]). { unfold load. destruct (str_eqb_spec fmt (u "sftxt")); [congruence|]. reflexivity. }
  unfold main. rewrite E, E1, Er, Er1. destruct (negb (memb fmt validinfmts)); [split; reflexivity|]. rewrite Hl. rewrite (unnamed_blobs fmt t [] [t] Hfmt).
  destruct (load s a1 fmt t [t]) as [m|e]; [|split; reflexivity]. change (modifiers a1) with (modifiers a). change (a_to a1) with (a_to a). change (a_width a1) with (a_width a). destruct (render_as _ _ _ _ _ _ _); split; reflexivity.
Qed.
Print Assumptions C61_stdin.
Theorem C61_stdin_sftxt : forall s rn a t, a_input_file a = [dash] -> a_fromfmt a = Some (u "sftxt") -> s_stdin s = Ok t -> main s rn a = Outcome [dash] [] (Uncaught IndexError).
Proof.
  intros s rn a t El Ef Hs. unfold main, input_format. rewrite Ef. cbn [bind]. change (memb (u "sftxt") validinfmts) with true. cbn [negb]. unfold read_input. rewrite El, str_eqb_refl, Hs. reflexivity.
Qed.
Print Assumptions C61_stdin_sftxt.

(** ** Modifiers *)
Lemma memb_same l l' : (forall x, In x l <-> In x l') -> forall x, memb x l = memb x l'.
Proof.
  intros H x. destruct (memb x l) eqn:E, (memb x l') eqn:E'; try reflexivity; [apply memb_In, H, memb_In in E|apply memb_In, H, memb_In in E']; congruence.
Qed.
Lemma text_output_same mods mods' secs : (forall x, memb x mods = memb x mods') -> text_output mods secs = text_output mods' secs.
Proof. intro H. induction secs as [|[n t] r IH]; [reflexivity|]. cbn [text_output]. unfold has. rewrite (H (u n)), IH. reflexivity. Qed.
(** The order in which -m options are given, and giving one twice, make no difference. *)
Theorem C61_modifier_order : forall s rn a ms ms', a_modifier a = Some ms -> ms <> [] -> ms' <> [] -> (forall x, In x ms <-> In x ms') ->
  main s rn a = main s rn (Args (a_input_file a) (a_fromfmt a) (a_to a) (Some ms') (a_width a) (a_cleanws a) (a_add_scores a)).
Proof.
  intros s rn a ms ms' Em Hn Hn' H. set (a' := Args _ _ _ _ _ _ _).
  assert (Hm : forall x, memb x (modifiers a) = memb x (modifiers a')).
  { intro x. unfold modifiers. rewrite Em. unfold a'. cbn [a_modifier]. destruct ms; [congruence|]. destruct ms'; [congruence|]. apply memb_same, H. }
  assert (Hr : forall to w m, render s rn to w (modifiers a) m = render s rn to w (modifiers a') m).
  { intros to w m. unfold render, has. rewrite !Hm. rewrite (text_output_same _ _ _ Hm). reflexivity. }
  assert (Hn0 : forall none to w m, render_as none s rn to w (modifiers a) m = render_as none s rn to w (modifiers a') m).
  { intros [|x none] to w m; [apply Hr|]. cbn [render_as]. unfold render_unnamed, has. rewrite !Hr, !Hm. rewrite (text_output_same _ _ _ Hm). reflexivity. }
  assert (Hl : forall fmt t b, load s a fmt t b = load s a' fmt t b). { intros. unfold load, has. rewrite Hm. reflexivity. }
  unfold main. change (input_format a') with (input_format a). change (read_input s a') with (read_input s a). change (a_to a') with (a_to a). change (a_width a') with (a_width a).
  destruct (input_format a) as [fmt|]; [|reflexivity]. destruct (negb (memb fmt validinfmts)); [reflexivity|]. destruct (read_input s a) as [reads [f|e|i b]]; try reflexivity. rewrite Hl. destruct (load s a' fmt i b) as [m|e]; [|reflexivity]. unfold has. rewrite Hm, Hn0. reflexivity.
Qed.
Print Assumptions C61_modifier_order.
(** Without -m (or with -m only for that) the text output is candidate list, table and Copeland winner; with -m exactly the
    chosen sections, always in this order: candlist, winlosstie, pairwise, IRV, score, STAR, Copeland. *)
Theorem C61_text_sections : forall s rn a m, a_to a = u "text" -> forall out, render s rn (a_to a) (a_width a) (modifiers a) m = Ok out ->
  exists parts, out = concat parts /\
    Forall2 (fun sec part => snd sec = Ok part) (filter (fun sec => has (fst sec) (modifiers a)) (text_sections s rn (a_width a) m)) parts.
Proof.
  intros s rn a m Et out H. rewrite Et in H. change (text_output (modifiers a) (text_sections s rn (a_width a) m) = Ok out) in H. revert out H.
  generalize (text_sections s rn (a_width a) m). induction l as [|[n t] r IH]; intros out H; cbn [text_output filter] in *.
  - injection H as <-. exists []. split; [reflexivity|constructor].
  - cbn [fst]. destruct (has n (modifiers a)); [|apply IH, H]. destruct t as [x|e]; cbn [bind] in H; [|discriminate H]. destruct (text_output (modifiers a) r) as [y|e]; cbn [bind] in H; [|discriminate H]. injection H as <-.
    destruct (IH y eq_refl) as (parts&->&F). exists (x :: parts). split; [reflexivity|]. constructor; [reflexivity|exact F].
Qed.
Print Assumptions C61_text_sections.
Theorem C61_section_order : forall s rn w m, map fst (text_sections s rn w m) = ["candlist"; "winlosstie"; "pairwise"; "IRV"; "score"; "STAR"; "Copeland"]%string.
Proof. reflexivity. Qed.
Print Assumptions C61_section_order.
Theorem C61_default_modifiers : forall a, a_modifier a = None -> forall x, In x (modifiers a) <-> In x [u "candlist"; u "winlosstie"; u "Copeland"].
Proof. intros a E x. unfold modifiers. rewrite E. cbn. tauto. Qed.
Print Assumptions C61_default_modifiers.

(** ** JSON outputs *)
(** -t paircountjson prints the pairwise counts unless -m IRV is given, which wins. *)
Theorem C61_paircountjson : forall s rn a m pm, a_to a = u "paircountjson" -> ~ In (u "IRV") (modifiers a) -> tallyable m -> (forall c, In c (cands m) -> text c) -> pairwise_count_dict m = Ok pm ->
  exists out j, render s rn (a_to a) (a_width a) (modifiers a) m = Ok out /\ json_loads out = Ok j /\
    forall x y, In x (cands m) -> In y (cands m) -> x <> y -> exists row, jmember x j = Some row /\ jmember y row = Some (JInt (votes_over m x y)).
Proof.
  intros s rn a m pm Et Hi Hm Ht Ep. rewrite Et. apply memb_nIn in Hi. destruct (C64_paircount m pm Hm Ht Ep) as (j&Hj&_&Hc). exists (dumps_indent 4 (json_of_pairmat pm)), j. split; [|split; [exact Hj|]].
  - unfold render. cbn [str_eqb u N.eqb N_of_ascii]. change (has "IRV" (modifiers a)) with (memb (u "IRV") (modifiers a)). rewrite Hi. rewrite Ep. reflexivity.
  - intros x y Hx Hy n. destruct (Hc x Hx) as (row&Hr&Hcell). exists row. split; [exact Hr|]. rewrite (Hcell y Hy). destruct (str_eqb_spec x y); [congruence|reflexivity].
Qed.
Print Assumptions C61_paircountjson.
Theorem C61_paircountjson_refuted : forall s rn a m d, a_to a = u "paircountjson" -> In (u "IRV") (modifiers a) -> IRV_dict_from_jabmod (s_irv s) m = Ok d ->
  render s rn (a_to a) (a_width a) (modifiers a) m = Ok (dumps_indent 4 (json_of_irv (r_set_order rn) d)).
Proof.
  intros s rn a m d Et Hi Ed. rewrite Et. apply memb_In in Hi. unfold render. cbn [str_eqb u N.eqb N_of_ascii]. change (has "IRV" (modifiers a)) with (memb (u "IRV") (modifiers a)). rewrite Hi, Ed. reflexivity.
Qed.
Print Assumptions C61_paircountjson_refuted.

(** ** A whole run *)
(** The run reads the one ABIF file f, whose text is t. *)
Definition reads_abif (s : surroundings) (a : args) (f t : str) : Prop :=
  a_input_file a = [f] /\ f <> dash /\ s_exists s f = true /\ s_read s f = Ok t /\ input_format a = Ok (u "abif").
Lemma run_abif s rn a f t m out : reads_abif s a f t ->
  convert_abif_to_jabmod t (a_cleanws a) (a_add_scores a) (memb (u "jcomments") (modifiers a)) = Ok m ->
  render s rn (a_to a) (a_width a) (modifiers a) (if memb (u "consolidate") (modifiers a) then consolidate m else m) = Ok out ->
  main s rn a = Outcome [f] (out ++ [10%N]) Done.
Proof.
  intros (El&Hd&Hx&Hr&Hf) Em Eo. unfold main. rewrite Hf. change (memb (u "abif") validinfmts) with true. cbn [negb].
  unfold read_input. rewrite El. destruct (str_eqb_spec f dash); [congruence|]. cbn [read_files]. rewrite Hx, Hr. cbn [app].
  rewrite unnamed_abif. cbn [render_as]. unfold load. change (str_eqb (u "abif") (u "abif")) with true. unfold has at 1. rewrite Em. unfold has at 1. rewrite Eo. reflexivity.
Qed.
(** -t jabmod prints a JSON file from which the ballots the parser found can be read back: all of them as they are, or,
    with -m consolidate, consolidated. *)
Theorem C61_jabmod : forall s rn a f t m, reads_abif s a f t -> a_to a = u "jabmod" ->
  convert_abif_to_jabmod t (a_cleanws a) (a_add_scores a) (memb (u "jcomments") (modifiers a)) = Ok m ->
  let m' := if memb (u "consolidate") (modifiers a) then consolidate m else m in storable m' ->
  exists out j, main s rn a = Outcome [f] (out ++ [10%N]) Done /\ json_loads out = Ok j /\ jabmod_of_json j = Some m'.
Proof.
  intros s rn a f t m R Et Em m' Hs. destruct (C64_jabmod m' Hs) as (j&L&D). exists (dumps_indent 4 (json_of_jabmod m')), j.
  split; [|split; assumption]. apply (run_abif s rn a f t m); [exact R|exact Em|]. rewrite Et. reflexivity.
Qed.
Print Assumptions C61_jabmod.
(** -t abif, nameq and csvrank print the conversions of these ballots (C39-C41, C42, C45); a failing conversion prints nothing
    and ends with the exception. *)
Theorem C61_conversions : forall s rn a f t m, reads_abif s a f t ->
  convert_abif_to_jabmod t (a_cleanws a) (a_add_scores a) (memb (u "jcomments") (modifiers a)) = Ok m ->
  let m' := if memb (u "consolidate") (modifiers a) then consolidate m else m in
  forall conv, (a_to a = u "abif" /\ conv = convert_jabmod_to_abif m') \/ (a_to a = u "nameq" /\ conv = convert_jabmod_to_nameq m') \/ (a_to a = u "csvrank" /\ conv = get_ranking_output_csv m') ->
  main s rn a = match conv with Ok out => Outcome [f] (out ++ [10%N]) Done | Err e => Outcome [f] [] (Uncaught e) end.
Proof.
  intros s rn a f t m R Em m' conv H.
  assert (Er : render s rn (a_to a) (a_width a) (modifiers a) m' = conv) by (destruct H as [(->&->)|[(->&->)|(->&->)]]; reflexivity).
  destruct conv as [out|e]; [apply (run_abif s rn a f t m); assumption|].
  destruct R as (El&Hd&Hx&Hr&Hf). unfold main. rewrite Hf. change (memb (u "abif") validinfmts) with true. cbn [negb].
  unfold read_input. rewrite El. destruct (str_eqb_spec f dash); [congruence|]. cbn [read_files]. rewrite Hx, Hr. cbn [app].
  rewrite unnamed_abif. cbn [render_as]. unfold load. change (str_eqb (u "abif") (u "abif")) with true. unfold has at 1. rewrite Em. unfold has at 1. fold m'. rewrite Er. reflexivity.
Qed.
Print Assumptions C61_conversions.

(** The JSON of -t winlosstiejson: for every candidate the opponents it beats, those that beat it, and twice those it
    ties with. *)
Theorem C61_winlosstiejson : forall s rn a m, a_to a = u "winlosstiejson" -> tallyable m -> (forall c, In c (cands m) -> text c) ->
  exists out rows, render s rn (a_to a) (a_width a) (modifiers a) m = Ok out /\ json_loads out = Ok (JObj rows) /\ Permutation (map fst rows) (cands m) /\
    forall c, In c (cands m) -> exists row, dget c rows = Some row /\
      jmember (u "wins") row = Some (JInt (count (fun b => beats (votes_over m) c b) (others c (cands m)))) /\
      jmember (u "losses") row = Some (JInt (count (fun b => beats (votes_over m) b c) (others c (cands m)))) /\
      jmember (u "ties") row = Some (JInt (2 * count (fun b => ties_with (votes_over m) c b) (others c (cands m)))).
Proof.
  intros s rn a m Et Hm Ht. destruct (C05_copecount_total m Hm) as (cc&Ec). destruct (C05_winlosstie_exact m cc Hm Ec) as (P&_&Hx).
  unfold full_copecount in Ec. destruct (pairwise_count_dict m) as [pm|] eqn:Ep; [|discriminate Ec]. cbn [bind] in Ec.
  destruct (winlosstie_dict_from_pairdict (j_candidates m) pm) as [w|] eqn:Ew; [|discriminate Ec]. cbn [bind] in Ec.
  assert (Ecc : cc_winlosstie cc = w). { apply ok_inj in Ec. subst cc. reflexivity. } rewrite Ecc in *. clear Ec Ecc cc.
  set (cell := fun kw : str * wlt => JObj [(u "wins", JInt (wins (snd kw))); (u "losses", JInt (losses (snd kw))); (u "ties", JInt (ties (snd kw)))]).
  exists (dumps_indent 4 (json_of_wlt w)), (map (fun kw => (fst kw, cell kw)) w).
  assert (Hn : NoDup (map fst w)) by (apply (Permutation_NoDup (Permutation_sym P)), Hm).
  assert (Ek : map fst (map (fun kw => (fst kw, cell kw)) w) = map fst w) by (rewrite map_map; reflexivity).
  split; [|split; [|split]].
  - rewrite Et. unfold render. cbn [str_eqb u N.eqb N_of_ascii]. rewrite Ep. cbn [bind]. rewrite Ew. reflexivity.
  - change (json_of_wlt w) with (JObj (map (fun kw => (fst kw, cell kw)) w)). apply loads_dumps.
    + apply text_obj_intro. intros k x H. apply in_map_iff in H as (kw&E&H). injection E as <- <-. split; [|reflexivity].
      apply Ht. apply (Permutation_in _ P). apply in_map; exact H.
    + apply nodup_obj_intro; [rewrite Ek; exact Hn|]. intros k x H. apply in_map_iff in H as (kw&E&H). injection E as <- <-.
      apply nodup_obj_intro; [repeat constructor; cbn; intuition discriminate|]. intros k x Hi. cbn in Hi.
      destruct Hi as [Hi|[Hi|[Hi|[]]]]; injection Hi as <- <-; exact I.
  - rewrite Ek. exact P.
  - intros c Hc. specialize (Hx c Hc). eexists. split.
    + apply dget_In_nodup; [unfold dkeys; rewrite Ek; exact Hn|]. apply in_map_iff. apply dget_In in Hx. eexists. split; [|exact Hx]. reflexivity.
    + cbn. auto.
Qed.
Print Assumptions C61_winlosstiejson.

(** The candlist section: a heading and a line per candidate with token and name, in the order of the tokens. *)
Theorem C61_candlist : forall m, NoDup (cands m) -> exists l, Permutation l (j_candidates m) /\
  StronglySorted (fun x y => str_leb (fst x) (fst y) = true /\ fst x <> fst y) l /\
  candlist_text m = u "Candidates:" ++ [10%N] ++ concat (map (fun kv => u "  " ++ fst kv ++ u ": " ++ snd kv ++ [10%N]) l).
Proof.
  intros m Hn. set (keb := fun x y : str * str => if str_eqb (fst x) (fst y) then str_leb (snd x) (snd y) else str_leb (fst x) (fst y)).
  exists (sort_by keb (j_candidates m)). assert (P := sort_by_perm keb (j_candidates m)). split; [exact P|]. split; [|reflexivity].
  assert (Tot : forall x y, keb x y = true \/ keb y x = true).
  { intros x y. unfold keb. rewrite (str_eqb_sym (fst y)). destruct (str_eqb (fst x) (fst y)); apply str_leb_total. }
  assert (Tr : forall x y z, keb x y = true -> keb y z = true -> keb x z = true).
  { intros x y z. unfold keb. destruct (str_eqb_spec (fst x) (fst y)) as [e1|n1], (str_eqb_spec (fst y) (fst z)) as [e2|n2], (str_eqb_spec (fst x) (fst z)) as [e3|n3]; intros H1 H2; try congruence.
    - apply (str_leb_trans _ (snd y)); assumption.
    - exfalso. rewrite e3 in H1. apply n1. rewrite e3. apply str_leb_antisym; assumption.
    - apply (str_leb_trans _ (fst y)); assumption. }
  assert (Hs := sort_by_sorted keb Tot Tr (j_candidates m)).
  assert (Hn' : NoDup (map fst (sort_by keb (j_candidates m)))) by (apply (Permutation_NoDup (Permutation_map fst (Permutation_sym P))), Hn).
  clear P. revert Hn'. induction Hs as [|x r Hs IH Hf]; intro Hn'; [constructor|]. cbn [map] in Hn'. inversion Hn' as [|k ks H1 H2]; subst. constructor; [apply IH; exact H2|].
  rewrite Forall_forall in *. intros y Hy. specialize (Hf y Hy). assert (Hne : fst x <> fst y) by (intro E; apply H1; rewrite E; apply in_map; exact Hy).
  split; [|exact Hne]. unfold keb in Hf. destruct (str_eqb_spec (fst x) (fst y)); [congruence|exact Hf].
Qed.
Print Assumptions C61_candlist.

Definition cli_files : surroundings := Surroundings (fun f => str_eqb f (u "x.abif")) (fun _ => Ok (u "5:B>A=C" ++ [10%N] ++ u "2:B>A=C")) (Err OSError) (fun x => x) (Oracle (fun _ => O) (fun _ l => l)).
Definition cli_render : rendering := Rendering (fun _ _ => []) (fun _ => []) soup_str (fun _ _ => []) (fun l => l).
Definition cli_args (to : string) (mods : list string) : args := Args [u "x.abif"] None (u to) (match mods with [] => None | _ => Some (map u mods) end) 160 false false.
(** Two equal lines; their sum with consolidate; B beats both others, which tie. *)
Example C61_run_sample : reads_abif cli_files (cli_args "jabmod" []) (u "x.abif") (u "5:B>A=C" ++ [10%N] ++ u "2:B>A=C") /\
  (let out := o_stdout (main cli_files cli_render (cli_args "jabmod" [])) in
   match json_loads out with Ok j => option_map (fun m => map v_qty (j_votelines m)) (jabmod_of_json j) | Err _ => None end = Some [5; 2]) /\
  (let out := o_stdout (main cli_files cli_render (cli_args "jabmod" ["consolidate"%string])) in
   match json_loads out with Ok j => option_map (fun m => map v_qty (j_votelines m)) (jabmod_of_json j) | Err _ => None end = Some [7]) /\
  (let out := o_stdout (main cli_files cli_render (cli_args "winlosstiejson" [])) in
   match json_loads out with Ok j => option_map (fun r => (jmember (u "wins") r, jmember (u "losses") r, jmember (u "ties") r)) (jmember (u "A") j) | Err _ => None end =
     Some (Some (JInt 0), Some (JInt 1), Some (JInt 2))) /\
  o_stdout (main cli_files cli_render (cli_args "text" ["candlist"%string])) =
    u "Candidates:" ++ [10%N] ++ u "  A: A" ++ [10%N] ++ u "  B: B" ++ [10%N] ++ u "  C: C" ++ [10%N; 10%N].
Proof. split; [repeat split; discriminate|]. vm_compute. auto. Qed.
