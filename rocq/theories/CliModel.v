(** * CliModel: abiftool.py main, lines 93-283 *)

From Verif Require Import PyBase Jabmod PairwiseModel ScoreModel IrvModel ParserModel WriterModel NameqModel DebtallyModel PreflibModel SftxtModel DiagramModel ResultsJson HtmlModel.
From Verif Require Import JsonText JsonParse JabmodJson ConvertModel.
Local Open Scope Z_scope.
Local Open Scope res_scope.

(** INPUT_FORMATS, OUTPUT_FORMATS and MODIFIERS, abiftool.py:27-64 *)
Definition validinfmts : list str := [u "abif"; u "debtally"; u "jabmod"; u "nameq"; u "preflib"; u "sftxt"; u "widj"].
(** The keys of OUTPUT_FORMATS, abiftool.py:37-51 (line 102) *)
Definition validoutfmts : list str :=
  [u "abif"; u "csvrank"; u "dot"; u "html"; u "html_snippet"; u "irvjson"; u "jabmod"; u "json"; u "nameq"; u "paircountjson"; u "svg"; u "text"; u "winlosstiejson"].
(** The keys of MODIFIERS, abiftool.py:53-64 (line 103) *)
Definition validmod : list str :=
  [u "candlist"; u "Copeland"; u "consolidate"; u "IRV"; u "jcomments"; u "pairwise"; u "score"; u "STAR"; u "svg"; u "winlosstie"].

(** What argparse hands over (abiftool.py:104-121).  [modifier] is None without -m.  How they come from the command line, and the
    option -d, which prints a line after the output, is in ArgvModel. *)
Record args := Args {
  a_input_file : list str; a_fromfmt : option str; a_to : str; a_modifier : option (list str); a_width : Z; a_cleanws : bool; a_add_scores : bool
}.
(** argparse accepts them: nargs='+' and choices. (abiftool.py:104-121) *)
Definition accepted (a : args) : Prop :=
  a_input_file a <> [] /\ (forall f, a_fromfmt a = Some f -> In f validinfmts) /\ In (a_to a) validoutfmts /\ (forall ms, a_modifier a = Some ms -> incl ms validmod).

(** The files the program can see, standard input, and everything left to libraries or chance. (abiftool.py:139-160) *)
Record surroundings := Surroundings {
  s_exists : str -> bool;           (* os.path.exists *)
  s_read : str -> result str;       (* open(...).read() *)
  s_stdin : result str;
  s_sha1 : hash;
  s_irv : oracle
}.
(** What graphviz, lxml, BeautifulSoup and texttable do, and the order in which Python walks a set of strings. (textoutput.py:32-64) *)
Definition texttable_input : Type := list str * list (str * list (option Z)).     (* header and rows *)
(* The libraries: vizelect.py:56 (graphviz), abiftool.py:214-223 (lxml), html_output_pairwise.py:213, textoutput.py:50 and 118 (texttable). *)
Record rendering := Rendering {
  r_graph : str -> digraph -> str;               (* format, graph *)
  r_xml : str -> list node;                      (* BeautifulSoup(text, 'xml') *)
  r_soup : list node -> str;                     (* prettify *)
  r_draw : Z -> texttable_input -> str;          (* Texttable(max_width=...).draw() *)
  r_set_order : list str -> list str
}.

(** How the process ends: normally or by sys.exit() (status 0 both), or by an exception nobody catches (status 1). (abiftool.py:137, 147, 172 and 190) *)
Inductive ending := Done | Exited | Uncaught (e : exn).
(** The status of the Python interpreter for these endings of abiftool.py. *)
Definition exit_status (e : ending) : Z := match e with Done | Exited => 0 | Uncaught _ => 1 end.
(** What can be observed of a run of abiftool.py: the files it reads, what it prints, how it ends. *)
Record outcome := Outcome { o_reads : list str; o_stdout : str; o_ending : ending }.
(** print(s) (abiftool.py:280) *)
Definition println (s : str) : str := s ++ [10%N].

(** s.rsplit('.', 1)[1] when there is a '.' (abiftool.py:131) *)
Fixpoint after_last_dot (s : str) : option str :=
  match s with
  | [] => None
  | c :: r => match after_last_dot r with
              | Some e => Some e
              | None => if N.eqb c 46 then Some r else None
              end
  end.
(** abiftool.py:126-134.  args.input_file is a list, so line 128 never compares equal. *)
Definition input_format (a : args) : result str :=
  match a_fromfmt a with
  | Some f => Ok f
  | None =>
      let* first := of_option IndexError (nth_error (a_input_file a) 0) in
      Ok (match after_last_dot first with Some ext => ext | None => u "abif" end)
  end.

(** abiftool.py:139-150: reading.  inputstr is the last file's text; inputblobs has all of them. *)
Inductive reading := Missing (f : str) | Failed (e : exn) | Got (inputstr : str) (inputblobs : list str).
(** abiftool.py:144-150: the loop over the files *)
Fixpoint read_files (s : surroundings) (todo : list str) (inputstr : str) (blobs reads : list str) : list str * reading :=
  match todo with
  | [] => (reads, Got inputstr blobs)
  | f :: r =>
      if s_exists s f then
        match s_read s f with
        | Ok t => read_files s r t (blobs ++ [t]) (reads ++ [f])
        | Err e => (reads ++ [f], Failed e)
        end
      else (reads, Missing f)
  end.
(** abiftool.py:140: the file name that means standard input *)
Definition dash : str := u "-".
(** abiftool.py:139-150: standard input, or the files *)
Definition read_input (s : surroundings) (a : args) : list str * reading :=
  match a_input_file a with
  | [f] => if str_eqb f dash then match s_stdin s with Ok t => ([dash], Got t []) | Err e => ([dash], Failed e) end
           else read_files s [f] [] [] []
  | l => read_files s l [] [] []
  end.

(** abiftool.py:157-160 *)
Definition modifiers (a : args) : list str :=
  match a_modifier a with Some (m :: ms) => m :: ms | _ => [u "candlist"; u "Copeland"; u "winlosstie"] end.
(** abiftool.py:193-271: '...' in modifiers *)
Definition has (m : string) (mods : list str) : bool := memb (u m) mods.

(** abiftool.py:163-186.  The message of line 171 is part of [main]. *)
Definition load (s : surroundings) (a : args) (fmt inputstr : str) (blobs : list str) : result jabmod :=
  if str_eqb fmt (u "abif") then convert_abif_to_jabmod inputstr (a_cleanws a) (a_add_scores a) (has "jcomments" (modifiers a))
  else if str_eqb fmt (u "debtally") then let* raw := convert_debtally_to_abif (s_sha1 s) inputstr [] in convert_abif_to_jabmod raw false false false
  else if str_eqb fmt (u "jabmod") then let* j := json_loads inputstr in as_jabmod (name_nulls j)
  else if str_eqb fmt (u "nameq") then convert_nameq_to_jabmod inputstr
  else if str_eqb fmt (u "preflib") then let* raw := convert_preflib_str_to_abif inputstr in convert_abif_to_jabmod raw false false false
  else if str_eqb fmt (u "sftxt") then
    let* b0 := blob 0 blobs in let* b1 := blob 1 blobs in let* m := convert_sftxt_to_jabmod b0 b1 false in Ok (jabmod_of_sf m)
  else let* j := convert_widj_to_jabmod (JStr inputstr) in as_jabmod j.

(** abiftool.py:246-271: a section of the text output *)
Definition text_sections (s : surroundings) (rn : rendering) (width : Z) (m : jabmod) : list (string * result str) :=
  [ ("candlist"%string, Ok (candlist_text m));
    ("winlosstie"%string, let* t := texttable_rows m in table_text (r_draw rn 80 t));
    ("pairwise"%string, let* p := pairwise_count_dict m in table_text (r_draw rn width (textgrid_rows p)));
    ("IRV"%string, let* d := IRV_dict_from_jabmod (s_irv s) m in get_IRV_report d);
    ("score"%string, score_report m);
    ("STAR"%string, let* h := abifmodel_has_ratings m in
             if h then STAR_report m else Ok (u "No stars/scores available." ++ u "  Please use --add-scores to extrapolate score from ranks."));
    ("Copeland"%string, let* cc := full_copecount m in Copeland_report (j_candidates m) cc) ].
(** abiftool.py:246-271: the sections whose modifier is given, one after the other *)
Fixpoint text_output (mods : list str) (sections : list (string * result str)) : result str :=
  match sections with
  | [] => Ok []
  | (name, t) :: r =>
      if has name mods then let* x := t in let* y := text_output mods r in Ok (x ++ y) else text_output mods r
  end.

(** abiftool.py:202-278.  The size check of html_output_common.py:51-57 (html_snippet only) is taken to pass: sys.getsizeof of the model
    is the size of its outer dictionary. *)
Definition render (s : surroundings) (rn : rendering) (to : str) (width : Z) (mods : list str) (m : jabmod) : result str :=
  if str_eqb to (u "abif") then convert_jabmod_to_abif m
  else if str_eqb to (u "csvrank") then get_ranking_output_csv m
  else if str_eqb to (u "dot") then let* cc := full_copecount m in let* g := copecount_diagram cc in Ok (r_graph rn (u "dot") g)
  else if str_eqb to (u "html") then let* t := html_table m in Ok (r_soup rn (html_page m false None t))
  else if str_eqb to (u "html_snippet") then
    let* cc := full_copecount m in
    let* svg := (if has "svg" mods then let* g := copecount_diagram cc in Ok (Some (r_xml rn (r_graph rn (u "svg") g))) else Ok None) in
    let* t := html_table m in Ok (r_soup rn (html_page m true svg t))
  else if str_eqb to (u "irvjson") || str_eqb to (u "json") || str_eqb to (u "paircountjson") then
    if str_eqb to (u "irvjson") || has "IRV" mods then let* d := IRV_dict_from_jabmod (s_irv s) m in Ok (dumps_indent 4 (json_of_irv (r_set_order rn) d))
    else if str_eqb to (u "paircountjson") || has "pairwise" mods then let* p := pairwise_count_dict m in Ok (dumps_indent 4 (json_of_pairmat p))
    else if has "STAR" mods then let* d := STAR_result m in Ok (dumps_indent 4 (json_of_star d))
    else Ok (u "Please specify modifier or choose 'jabmod' output format")
  else if str_eqb to (u "jabmod") then Ok (dumps_indent 4 (json_of_jabmod m))
  else if str_eqb to (u "nameq") then convert_jabmod_to_nameq m
  else if str_eqb to (u "svg") then let* cc := full_copecount m in let* g := copecount_diagram cc in Ok (r_graph rn (u "svg") g)
  else if str_eqb to (u "text") then text_output mods (text_sections s rn width m)
  else let* p := pairwise_count_dict m in let* w := winlosstie_dict_from_pairdict (j_candidates m) p in Ok (dumps_indent 4 (json_of_wlt w)).

(** Candidates without a name.  convert_sftxt_to_jabmod gives the entry of the empty line the name None (sftxt.py:140, 300-306), which
    [jabmod_of_sf] writes as the text "None": right wherever the name goes through an f-string; a jabmod file may have null there.  [render_unnamed] says what happens
    elsewhere; [none] are the tokens without a name. *)
Definition unnamed (fmt inputstr : str) (blobs : list str) : list str :=
  if str_eqb fmt (u "sftxt") then
    match blob 0 blobs, blob 1 blobs with
    | Ok b0, Ok b1 => match convert_sftxt_to_jabmod b0 b1 false with
                      | Ok m => map fst (filter (fun kn => match snd kn with None => true | Some _ => false end) (sf_candidates m))
                      | Err _ => []
                      end
    | _, _ => []
    end
  else if str_eqb fmt (u "jabmod") then match json_loads inputstr with Ok j => null_named j | Err _ => [] end
  else [].
(** Not in /repo: applies [f] to the members with these keys (see [render_unnamed]). *)
Definition null_names (none : list str) (f : json -> json) (j : json) : json := fold_left (fun j k => at_key k f j) none j.
(** Not in /repo: the value null, which is what a missing name is in JSON. *)
Definition to_null (j : json) : json := JNull.
(** irvtally.py:237: the names; 243-247: a join of several names fails on None, the name of a single winner is None *)
Definition nameless_tie (none : list str) (d : irvdict) : bool := (1 <? length (ir_winner d))%nat && existsb (fun w => memb w none) (ir_winner d).
(** irvtally.py:235-253: the places of the IRV result where a name stands. *)
Definition irv_unnamed (none : list str) (d : irvdict) (j : json) : json :=
  at_key (u "canddict") (null_names none to_null) (if existsb (fun w => memb w none) (ir_winner d) then at_key (u "winnerstr") to_null j else j).
(** scorestar.py:32, 79-80, 85-90 *)
Definition star_unnamed (none : list str) (st : starres) (j : json) : json :=
  let blank (b : bool) (k : str) (j : json) := if b then at_key k to_null j else j in
  at_key (u "scores") (null_names none (at_key (u "candname") to_null))
    (blank (memb (st_fin1 st) none) (u "fin1n") (blank (memb (st_fin2 st) none) (u "fin2n")
      (blank ((st_fin2votes st <? st_fin1votes st) && memb (st_fin1 st) none || (st_fin1votes st <? st_fin2votes st) && memb (st_fin2 st) none) (u "winner") j))).
(** abiftool.py:203-278 for a jabmod in which some names are None (sftxt.py:306, or null in a jabmod file): as [render], but for the outputs that show names. *)
Definition render_unnamed (none : list str) (s : surroundings) (rn : rendering) (to : str) (width : Z) (mods : list str) (m : jabmod) : result str :=
  let irv := let* d := IRV_dict_from_jabmod (s_irv s) m in if nameless_tie none d then Err TypeError else Ok d in
  if str_eqb to (u "html") || str_eqb to (u "html_snippet") then
    (* html_output_common.py:37: ', '.join of the names; the steps before it can only fail as in [render] *)
    let* _ := render s rn to width mods m in Err TypeError
  else if str_eqb to (u "irvjson") || str_eqb to (u "json") || str_eqb to (u "paircountjson") then
    if str_eqb to (u "irvjson") || has "IRV" mods then let* d := irv in Ok (dumps_indent 4 (irv_unnamed none d (json_of_irv (r_set_order rn) d)))
    else if str_eqb to (u "paircountjson") || has "pairwise" mods then render s rn to width mods m
    else if has "STAR" mods then let* d := STAR_result m in Ok (dumps_indent 4 (star_unnamed none d (json_of_star d)))
    else render s rn to width mods m
  else if str_eqb to (u "jabmod") then Ok (dumps_indent 4 (at_key (u "candidates") (null_names none to_null) (json_of_jabmod m)))
  else if str_eqb to (u "text") then
    text_output mods (map (fun nt => if str_eqb (u (fst nt)) (u "IRV") then (fst nt, let* d := irv in get_IRV_report d) else nt) (text_sections s rn width m))
  else render s rn to width mods m.
(** abiftool.py:203-278: the output, whether or not names are missing *)
Definition render_as (none : list str) (s : surroundings) (rn : rendering) (to : str) (width : Z) (mods : list str) (m : jabmod) : result str :=
  match none with [] => render s rn to width mods m | _ => render_unnamed none s rn to width mods m end.

(** The text of the ABIFVotelineException, core.py:81 and 132-136 (abiftool.py:171 prints it before raising again). *)
Definition voteline_message (inputstr : str) : str :=
  match inputstr with
  | [] => u "Empty ABIF string.."
  | _ => (if (20 <? length inputstr)%nat then u "No votelines in """ ++ firstn 20 inputstr ++ u "..."". " else u "No votelines in """ ++ inputstr ++ u """. ")
         ++ u "Votelines (like '20:A>B>C') are required in valid ABIF files."
  end.

(** main, abiftool.py:124-280, after argparse.  The log call of line 122 is taken to succeed (C62). *)
Definition main (s : surroundings) (rn : rendering) (a : args) : outcome :=
  match input_format a with
  | Err e => Outcome [] [] (Uncaught e)
  | Ok fmt =>
      if negb (memb fmt validinfmts) then Outcome [] (println (u "Error: Unsupported input format '" ++ fmt ++ u "'")) Done
      else
        match read_input s a with
        | (reads, Missing f) => Outcome reads (println (u "The file '" ++ f ++ u "' doesn't exist.")) Exited
        | (reads, Failed e) => Outcome reads [] (Uncaught e)
        | (reads, Got inputstr blobs) =>
            match load s a fmt inputstr blobs with
            | Err e => Outcome reads (match e with VotelineExn => if str_eqb fmt (u "abif") then println (u "ERROR: " ++ voteline_message inputstr) else [] | _ => [] end) (Uncaught e)
            | Ok m =>
                let m' := if has "consolidate" (modifiers a) then consolidate m else m in
                match render_as (unnamed fmt inputstr blobs) s rn (a_to a) (a_width a) (modifiers a) m' with
                | Ok out => Outcome reads (println out) Done
                | Err e => Outcome reads [] (Uncaught e)
                end
            end
        end
  end.
