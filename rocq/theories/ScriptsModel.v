(** * ScriptsModel: the main functions of the library's modules and of util/copedot.py and util/configtool.py *)

From Verif Require Import ObjModel.
From Verif Require Import PyBase Jabmod PairwiseModel ScoreModel IrvModel ParserModel WriterModel NameqModel DebtallyModel PreflibModel DiagramModel ResultsJson HtmlModel.
From Verif Require Import JsonText JsonParse JabmodJson ConvertModel CliModel FetchModel PosixModel.
Local Open Scope Z_scope.
Local Open Scope res_scope.

(** A script without a test for missing files: opening one that is not there is FileNotFoundError, which nobody catches.
    [s_read] is the text read, or the exception of the attempt. (pairwise.py:143-172, irvtally.py:284-304, scorestar.py:164-219) *)
Definition script (s : surroundings) (f : str) (body : str -> result str) : outcome :=
  match s_read s f with
  | Err e => Outcome [f] [] (Uncaught e)
  | Ok text => match body text with
               | Ok out => Outcome [f] (println out) Done
               | Err e => Outcome [f] [] (Uncaught e)
               end
  end.

(** irvtally.py:284-300.  [json] is -j. *)
Definition irvtally_main (s : surroundings) (rn : rendering) (json : bool) (f : str) : outcome :=
  script s f (fun abiftext =>
    let* jabmod := convert_abif_to_jabmod abiftext false false false in
    let* IRV_dict := IRV_dict_from_jabmod (s_irv s) jabmod in
    if json then Ok (dumps_indent 4 (json_of_irv (r_set_order rn) IRV_dict))
    else let* report := get_IRV_report IRV_dict in Ok (candlist_text jabmod ++ report)).

(** pairwise.py:143-167; the width is the default of textoutput.py:32. *)
Definition pairwise_main (s : surroundings) (rn : rendering) (f : str) : outcome :=
  script s f (fun abiftext =>
    let* jabmod := convert_abif_to_jabmod abiftext false false false in
    let* pairdict := pairwise_count_dict jabmod in
    let* grid := table_text (r_draw rn 160 (textgrid_rows pairdict)) in
    Ok (u "======= ABIF FILE =======" ++ [10%N; 10%N] ++ headerfy_text_file abiftext f
        ++ [10%N] ++ u "======= PAIRWISE RESULTS =======" ++ [10%N; 10%N] ++ grid)).

(** scorestar.py:164-215.  [scaled_json] is json.dumps(indent=4) of the scaled scores, which are floats.  [jabmod] and [dumped] are one Python object, as a
    record and key by key (C96 relates the two readings). *)
Definition scorestar_main (s : surroundings) (scaled_json : scaledres -> str) (f : str) : outcome :=
  script s f (fun abiftext =>
    let* jabmod := convert_abif_to_jabmod abiftext false true false in
    let* dumped := convert_abif_obj abiftext false true false in
    let* scoreres := enhanced_score_result jabmod in
    let* star := STAR_result jabmod in
    let* score := score_report jabmod in
    let* report := STAR_report jabmod in
    let* scaled := scaled_scores jabmod 50 in
    Ok (u "======= ABIF File =======" ++ [10%N] ++ abiftext
        ++ u "======= ABIF Model (jabmod) =======" ++ [10%N] ++ dumps_indent 4 dumped
        ++ [10%N] ++ u "======= Raw Score JSON =======" ++ [10%N] ++ dumps_indent 4 (json_of_score scoreres)
        ++ [10%N] ++ u "======= Raw STAR JSON =======" ++ [10%N] ++ dumps_indent 4 (json_of_star star)
        ++ [10%N] ++ u "======= Score Results =======" ++ [10%N] ++ score
        ++ [10%N] ++ u "======= STAR Results =======" ++ [10%N] ++ report
        ++ [10%N] ++ u "======= Scaled Scores ========" ++ [10%N] ++ scaled_json scaled)).

(** debtally.py:106-120 *)
Definition debtally_main (s : surroundings) (f : str) : outcome :=
  script s f (fun sheet => convert_debtally_to_abif (s_sha1 s) sheet []).
(** preflib.py:83-97 *)
Definition preflib_main (s : surroundings) (f : str) : outcome :=
  script s f convert_preflib_str_to_abif.

(** html_output_pairwise.py:226, html_output_scorestar.py:63: abifmodel['metadata']['filename'] = f *)
Definition with_filename (f : str) (m : jabmod) : jabmod :=
  Jabmod (dset (u "filename") (JStr f) (j_metadata m)) (j_candidates m) (j_votelines m).
(** html_output_pairwise.py:218-231 *)
Definition html_pairwise_main (s : surroundings) (rn : rendering) (f : str) : outcome :=
  script s f (fun t =>
    let* j := json_loads t in
    let* m := as_jabmod j in
    let m' := with_filename f m in
    let* table := html_table m' in
    Ok (r_soup rn (html_page m' false None table))).
(** html_output_scorestar.py:53-67 *)
Definition html_scorestar_main (s : surroundings) (scaled_json : scaledres -> str) (f : str) : outcome :=
  script s f (fun t =>
    let* m := convert_abif_to_jabmod t false false false in
    let m' := with_filename f m in
    let* content := STAR_report m' in
    let* star := STAR_result m' in
    let* scaled := scaled_scores m' 50 in
    Ok (html_score_and_star content (dumps_indent 4 (json_of_star star)) (scaled_json scaled))).

(** core.py:682-717, after argparse; [strings] is not empty (nargs='+').  Functions 'pref_to_dict', 'process_abif_prefline',
    'emptyish' and 'modify_jabmod'; list_str stands for str() of a list of strings.  corefunc_init (core.py:45-53) and
    get_emptyish_jabmod (core.py:210-211) do nothing of their own. *)
Definition json_of_prefstrdict (pc : dict obj * list str) : json := JObj [(u "prefs", jobjs (fst pc)); (u "cands", jstrs (snd pc))].
(** The abifmodel that core.py:410-411 starts from (core.py:199-207) and core.py:425-430 leaves *)
Definition json_of_prefline (st : objstate) : json :=
  emptyish_object (j_metadata (fst st)) (map (fun kv => (fst kv, JStr (snd kv))) (j_candidates (fst st))) (snd st).
(** main of core.py, core.py:682-717 *)
Definition core_main (list_str : list str -> str) (func : str) (strings : list str) : outcome :=
  let print (x : result str) := match x with Ok out => Outcome [] (println out) Done | Err e => Outcome [] [] (Uncaught e) end in
  let s0 := hd [] strings in
  if str_eqb func (u "pref_to_dict") then print (let* d := parse_prefstr_obj s0 in Ok (dumps_indent 4 (json_of_prefstrdict d)))
  else if str_eqb func (u "process_abif_prefline") then print (let* st := process_prefline_obj (u "0") s0 None (emptyish, []) in Ok (dumps_indent 4 (json_of_prefline st)))
  else if str_eqb func (u "emptyish") then print (Ok (dumps_indent 4 (json_of_prefline (emptyish, []))))
  else print (Ok (u "FIXME: need to load jabmod file " ++ list_str strings)).

(** util/copedot.py:27-55.  The condition of line 48 is always true, so the other branches never run. *)
Definition copedot_main (s : surroundings) (rn : rendering) (outfmt f : str) : outcome :=
  let run (reads : list str) (r : result str) :=
    match (let* inputstr := r in
           let* abifmodel := convert_abif_to_jabmod inputstr false false false in
           let* copecount := full_copecount abifmodel in
           let* g := copecount_diagram copecount in
           Ok (r_graph rn outfmt g)) with
    | Ok out => Outcome reads (println out) Done
    | Err e => Outcome reads [] (Uncaught e)
    end in
  if str_eqb f dash then run [dash] (s_stdin s)
  else if negb (s_exists s f) then Outcome [] (println (u "The file '" ++ f ++ u "' doesn't exist.")) Exited
  else run [f] (s_read s f).

(** ** The help text, abiftool.py:27-64 and 69-91 *)
Definition INPUT_FORMATS : list (str * str) :=
  [ (u "abif", u "ABIF format");
    (u "debtally", u "Election output format used by the Debian Project");
    (u "jabmod", u "Internal JSON ABIF model (Json ABIF MODel)");
    (u "nameq", u "Brian Olson's format which URL-encoded version of the raw ballots");
    (u "preflib", u "Files downloaded from preflib.org");
    (u "sftxt", u "Text files published by the City and County of San Francisco");
    (u "widj", u "Legacy format from Electowidget") ].
(** abiftool.py:37-51 *)
Definition OUTPUT_FORMATS : list (str * str) :=
  [ (u "abif", u "ABIF format");
    (u "csvrank", u "CSV rank format used by the online RCV tool by Dan Eckam");
    (u "dot", u "Graphviz DOT format showing pairwise matchups");
    (u "html", u "Full HTML output from <html> to </html>");
    (u "html_snippet", u "HTML snippet that does not includes the <head> elements");
    (u "irvjson", u "JSON format representing IRV election results");
    (u "jabmod", u "Internal JSON ABIF model (Json ABIF MODel)");
    (u "json", u "JSON format as specified in corresponding modifier");
    (u "nameq", u "Brian Olson's format which URL-encoded version of the raw ballots");
    (u "paircountjson", u "Pairwise ballot counts");
    (u "svg", u "SVG output showing pairwise matchups and Copeland wins/losses/ties");
    (u "text", u "Text table showing pairwise matchups and Copeland wins/losses/ties");
    (u "winlosstiejson", u "JSON format representing win, loss, and tie counts") ].
(** abiftool.py:53-64 *)
Definition MODIFIERS : list (str * str) :=
  [ (u "candlist", u "List all candidates at the beginning of output");
    (u "Copeland", u "Show pairwise table and Copeland winner (default)");
    (u "consolidate", u "Consolidate votelines if possible");
    (u "IRV", u "Provide IRV results");
    (u "jcomments", u "Put comments in jabmod output if available");
    (u "pairwise", u "Show pairwise table (possibly without winlosstie info)");
    (u "score", u "Provide score results");
    (u "STAR", u "Provide STAR results");
    (u "svg", u "Add SVG to the output if avaiable");
    (u "winlosstie", u "Provide win-loss-tie table (default)") ].
(** help_text, abiftool.py:71-77; each dictionary of the list has one key. *)
Definition help_text (caption bullet : str) (dictlist : list (str * str)) : str :=
  caption ++ u ":" ++ [10%N] ++ concat (map (fun kd => bullet ++ u " " ++ fst kd ++ u ": " ++ snd kd ++ [10%N]) dictlist).
(** gen_epilog, abiftool.py:69-87 *)
Definition gen_epilog : str :=
  help_text (u "Input formats") (u "--from") INPUT_FORMATS ++ [10%N]
  ++ help_text (u "Output formats") (u "--to") OUTPUT_FORMATS ++ [10%N]
  ++ help_text (u "Modifiers") (u "--modifier") MODIFIERS.
(** get_keys_from_dict_list, abiftool.py:89-91, which gives validinfmts, validoutfmts and validmod (abiftool.py:97-99) *)
Definition get_keys_from_dict_list (dictlist : list (str * str)) : list str := map fst dictlist.

(** ** util/configtool.py *)
Definition starts (p : string) (s : str) : bool := match starts_with (u p) s with Some _ => true | None => false end.
(** p in s, configtool.py:16-54 *)
Fixpoint contains (p s : str) : bool := match starts_with p s with Some _ => true | None => match s with [] => false | _ :: r => contains p r end end.
(** A letter without its case, for the letters of "mayor"; no other character folds to one of these. (configtool.py:16-54) *)
Definition unshift (c : N) : N := if ((65 <=? c) && (c <=? 90))%N then (c + 32)%N else c.
(** _fix_tag, configtool.py:16-54, as a list that may have a member twice.  The regular expression of line 25 has two dots that
    match any character but a line feed. *)
Definition alaska_us (title : str) : bool :=
  match starts_with (u "Alaska-U") title with Some (c :: 83%N :: d :: _) => negb (N.eqb c 10) && negb (N.eqb d 10) | _ => false end.
(** _fix_tag, configtool.py:16-54 (see above) *)
Definition fix_tag (oldtag title : str) : list str :=
  (if contains (u "mayor") (map unshift oldtag) then [u "mayor"] else [])
  ++ (if starts "Alaska" oldtag && alaska_us title then [u "AK"; u "federal"]
      else if starts "Alaska" oldtag then [u "AK"; u "local"]
      else if starts "AlamedaCounty" oldtag then [u "CA"; u "AlamedaCounty_CA"]
      else if starts "SanFrancisco" oldtag || starts "san_francisco" oldtag then [u "CA"; u "SanFrancisco_CA"; u "SF"]
      else if starts "san_leandro" oldtag then [u "CA"; u "SanLeandro_CA"]
      else if starts "oakland" oldtag then [u "CA"; u "Oakland_CA"]
      else if starts "Maine" oldtag then [u "ME"]
      else if starts "ME_Primary" oldtag then [u "ME"; u "primary_election"]
      else if starts "Portland_ME" oldtag then [u "ME"; u "Portland_ME"]
      else if starts "Minneapolis" oldtag then [u "MN"; u "Minneapolis_MN"]
      else if starts "NYC" oldtag then [u "NY"; u "NYC_NY"]
      else if starts "Burlington_VT" oldtag then [u "VT"; u "Burlington_VT"]
      else if starts "Pierce_WA" oldtag then [u "WA"; u "PierceCounty_WA"]
      else map (fun c => [c]) oldtag).

(** s[:-len(p)] if s ends with p (configtool.py:62) *)
Definition without_suffix (p s : str) : option str := match starts_with (rev p) (rev s) with Some r => Some (rev r) | None => None end.
(** re.search(r'([^/]+)\.abif$', fn) and its group 1: the part after the last slash, if the name (but for a final line feed) ends in
    .abif and something is before that. (configtool.py:62-65) *)
Definition abif_id (fn : str) : option str :=
  let stem := match without_suffix (u ".abif") fn with Some x => Some x | None => without_suffix (u ".abif" ++ [10%N]) fn end in
  match stem with
  | Some x => match basename x with [] => None | b => Some b end
  | None => None
  end.
(** abiffile[k], abiffile.get(k) (configtool.py:59-77) *)
Definition item (k : string) (j : json) : result json := match j with JObj o => of_option KeyError (dget (u k) o) | _ => Err TypeError end.
(** d.get(k), configtool.py:66-89 *)
Definition get (k : string) (o : dict json) : json := or_default (dget (u k) o) JNull.
(** x.get(k), configtool.py:57-79 *)
Definition get_of (k : string) (j : json) : json := match j with JObj o => get k o | _ => JNull end.
(** The strings one gets from iterating over a JSON value; TypeError for one that cannot be iterated, or when a member is not a
    string (what _fix_tag and join make of it). (configtool.py:71-74) *)
Definition iter_strs (j : json) : result (list str) :=
  match j with
  | JStr s => Ok (map (fun c => [c]) s)
  | JArr l => mapM (fun x => match x with JStr s => Ok s | _ => Err TypeError end) l
  | JObj o => Ok (map fst o)
  | _ => Err TypeError
  end.
(** A str or None as JSON (configtool.py:57-79) *)
Definition opt_jstr (o : option str) : json := match o with Some s => JStr s | None => JNull end.
(** configtool.py:59-78: one entry.  What _fix_tag returns is collected and then not used (lines 70-74), so it is left out. *)
Definition file_entry (abiffile : json) : result json :=
  let* filename := item "abifloc" abiffile in
  let* fn := match filename with JStr s => Ok s | _ => Err TypeError end in
  let id := opt_jstr (abif_id fn) in
  let title := get_of "title" abiffile in
  let* tags := if json_truthy (get_of "tags" abiffile)
               then let* l := iter_strs (get_of "tags" abiffile) in Ok (JStr (join (u ", ") l))
               else Ok JNull in
  Ok (JObj [(u "filename", filename); (u "id", id); (u "title", if json_truthy title then title else id); (u "tags", tags); (u "desc", get_of "desc" abiffile)]).
(** make_nameq_based_file_list, configtool.py:57-79 *)
Definition make_nameq_based_file_list (fetchspec : dict json) : result json :=
  let* subfiles := of_option KeyError (dget (u "archive_subfiles") fetchspec) in
  let* l := match subfiles with
            | JArr l => Ok l
            | JObj [] | JStr [] => Ok []
            | _ => Err TypeError
            end in
  let* entries := mapM file_entry l in
  Ok (JArr entries).
(** convert_fetchspec_to_newdict, configtool.py:82-92, from the text of the file *)
Definition newdict (text : str) : result json :=
  let* j := json_loads text in
  match j with
  | JObj fetchspec =>
      match get "srcfmt" fetchspec with
      | JStr f => if str_eqb f (u "nameq_archive") then make_nameq_based_file_list fetchspec else Ok (JObj [(u "srcfmt", JStr f)])
      | x => Ok (JObj [(u "srcfmt", x)])
      end
  | _ => Err AttributeError
  end.
(** configtool.py:95-105; [yaml_dump] is yaml.dump(sort_keys=False).  A bare raise without an exception (line 86) is RuntimeError.  An
    empty name stops at line 103, where sys is not imported: NameError. *)
Definition configtool_main (s : surroundings) (yaml_dump : json -> str) (f : str) : outcome :=
  match f with
  | [] => Outcome [] (println (u "Please provide at least one input file")) (Uncaught NameError)
  | _ =>
      if negb (s_exists s f) then Outcome [] (println (u "fetchspec '" ++ f ++ u "' not found.")) (Uncaught RuntimeError)
      else script s f (fun t => let* d := newdict t in Ok (yaml_dump d))
  end.
