(** * ObjModel: the Python object that -t jabmod prints, key by key

    The models of the importers (ParserModel, NameqModel, SftxtModel) build a record, which has no order of keys and no
    null comment.  Here the same functions build the dicts themselves: every assignment d[k] = v of /repo is a dset.
    C96 relates the two. *)

From Verif Require Import PyBase Jabmod PairwiseModel ScoreModel ParserModel WriterModel NameqModel DebtallyModel PreflibModel SftxtModel.
From Verif Require Import Regex UrlText JsonText JsonParse JabmodJson ConvertModel CliModel ArgvModel.
Local Open Scope Z_scope.
Local Open Scope res_scope.

(** A Python dict with string keys whose values json.dumps can write. (core.py:373, 413) *)
Definition obj := dict json.
(** bool(v), for the .get(...) tests of core.py:236, 265 and 389 *)
Definition json_truthy (j : json) : bool :=
  match j with
  | JNull => false
  | JBool b => b
  | JInt z => negb (z =? 0)
  | JStr s => negb (str_eqb s [])
  | JArr l => match l with [] => false | _ => true end
  | JObj l => match l with [] => false | _ => true end
  end.
(** bool(d.get(k)) (core.py:236, 265 and 389) *)
Definition has_true_key (k : string) (d : obj) : bool := match dget (u k) d with Some v => json_truthy v | None => false end.
(** int(v) (core.py:220 and 227) *)
Definition json_int (j : json) : result Z :=
  match j with
  | JInt z => Ok z
  | JBool b => Ok (if b then 1 else 0)
  | JStr s => py_int s
  | _ => Err TypeError
  end.
(** int(d.get("rating", 0)), core.py:220 and 227 *)
Definition rating_or_0_obj (d : obj) : result Z := match dget (u "rating") d with Some j => json_int j | None => Ok 0 end.

(** core.py:223-239; [prev] is (prevrate, prevrank) *)
Fixpoint assign_ranks_obj (prev : option (Z * Z)) (cs : list (str * Z)) (prefs : dict obj) : result (dict obj) :=
  match cs with
  | [] => Ok prefs
  | (c, rate) :: r =>
      let* rank :=
        match prev with
        | None => Ok 1
        | Some (prevrate, prevrank) =>
            if rate <? prevrate then Ok (prevrank + 1)
            else if rate =? prevrate then Ok prevrank
            else Err TypeError
        end in
      let* prefs' := dmodE c (fun d => if has_true_key "rank" d then d else dset (u "rank") (JInt rank) d) prefs in
      assign_ranks_obj (Some (rate, rank)) r prefs'
  end.
(** _add_ranks_to_prefjab_by_rating, core.py:213-240 *)
Definition add_ranks_obj (prefs : dict obj) : result (dict obj) :=
  let* keyed := mapM (fun kv => let* z := rating_or_0_obj (snd kv) in Ok (fst kv, z)) prefs in
  assign_ranks_obj None (sort_desc snd keyed) prefs.

(** core.py:370-385, with the arguments of [prefs_loop] *)
Fixpoint prefs_loop_obj (mode : rankmode) (ds : list N) (n i : nat) (rank : Z)
    (cps : list (str * option ratingval)) (prefs : dict obj) : result (dict obj) :=
  match cps with
  | [] => Ok prefs
  | (cand, rating) :: r =>
      let d0 : obj := match rating with
                      | Some rv => if rating_truthy rv then dset (u "rating") (json_of_rating rv) [] else []
                      | None => []
                      end in
      let notlast := (i <? n - 1)%nat in
      let* (d1, rank1) :=
        match mode with
        | MRankOne => Ok (dset (u "rank") (JInt 1) d0, 1)
        | MRank =>
            let d' := dset (u "rank") (JInt rank) d0 in
            if notlast then
              let* c := of_option IndexError (nth_error ds i) in
              if N.eqb c ch_gt then Ok (dset (u "nextdelim") (JStr [c]) d', rank + 1) else Ok (d', rank)
            else Ok (d', rank)
        | MRate => Ok (d0, rank)
        end in
      let* d2 := if notlast then let* c := of_option IndexError (nth_error ds i) in Ok (dset (u "nextdelim") (JStr [c]) d1) else Ok d1 in
      prefs_loop_obj mode ds n (S i) rank1 r (dset cand d2 prefs)
  end.
(** _parse_prefstr_to_dict, core.py:355-396 *)
Definition parse_prefstr_obj (prefstr : str) : result (dict obj * list str) :=
  let '(mode, ds) := rank_or_rate prefstr in
  let* cps := extract_candprefs prefstr in
  let* prefs0 := prefs_loop_obj mode ds (length cps) 0 1 cps [] in
  let* prefs1 := add_ranks_obj prefs0 in
  let candkeys := map fst cps in
  match candkeys with
  | [] => Ok ([], [])
  | c0 :: _ =>
      let* d := dgetE c0 prefs1 in
      if has_true_key "rating" d && negb (has_true_key "rank" d) then
        let* prefs2 := add_ranks_obj prefs1 in Ok (prefs2, candkeys)
      else Ok (prefs1, candkeys)
  end.
(** A dict of dicts, as a value of another dict. (core.py:421) *)
Definition jobjs (prefs : dict obj) : json := JObj (map (fun cd => (fst cd, JObj (snd cd))) prefs).
(** The dict linepair of core.py:413-424 *)
Definition linepair (qty : Z) (comment : option str) (prefs : dict obj) (prefstr : str) (voterid : option str) : json :=
  let d1 := dset (u "qty") (JInt qty) [] in
  let d2 := dset (u "comment") (match comment with Some c => JStr c | None => JNull end) d1 in
  let d3 := dset (u "prefs") (jobjs prefs) d2 in
  let d4 := dset (u "prefstr") (JStr prefstr) d3 in
  JObj (match voterid with Some v => dset (u "voterid") (JStr v) d4 | None => d4 end).

(** The state of the loop of convert_abif_to_jabmod (core.py:85-130): metadata and candidates in a jabmod without votelines, and
    the list abifmodel['votelines']. *)
Definition objstate : Type := jabmod * list json.
(** _process_abif_prefline, core.py:399-430 *)
Definition process_prefline_obj (qty prefstr : str) (linecomment : option str) (st : objstate) : result objstate :=
  let '(m, vls) := st in
  let voterid := match linecomment with
                 | Some c => match re_match VOTERID_REGEX c with
                             | Some (g, _) => Some (group 2 g)
                             | None => None
                             end
                 | None => None
                 end in
  let* q := py_int qty in
  let* bc := dgetE k_ballotcount (j_metadata m) in
  let* bcz := match bc with JInt z => Ok z | JBool b => Ok (if b then 1 else 0) | _ => Err TypeError end in
  let md := dset k_ballotcount (JInt (bcz + q)) (j_metadata m) in
  let* (prefs, candkeys) := parse_prefstr_obj prefstr in
  Ok (Jabmod md (merge_cands candkeys (j_candidates m)) [], vls ++ [linepair q linecomment prefs (rstrip prefstr) voterid]).
(** The body of the loop, core.py:85-130 *)
Definition process_line_obj (cleanws storecomments : bool) (st : objstate) (il : Z * str) : result objstate :=
  let '(i, fullline0) := il in
  let '(m, vls) := st in
  let fullline := if cleanws then lstrip fullline0 else fullline0 in
  let '(strpdline, linecomment) := strip_comment fullline in
  let* m1 := process_comment m linecomment i storecomments in
  match re_match CANDLINE_REGEX strpdline with
  | Some (g, _) => Ok (process_candline (group 1 g) (group 2 g) m1, vls)
  | None =>
      match re_match METADATA_REGEX strpdline with
      | Some (g, _) => Ok (process_metadata (group 1 g) (group 2 g) m1, vls)
      | None =>
          match re_match VOTELINE_REGEX strpdline with
          | Some (g, _) => process_prefline_obj (group 1 g) (group 2 g) linecomment (m1, vls)
          | None => Ok (m1, vls)
          end
      end
  end.

(** ** _add_ratings_to_jabmod_votelines, core.py:243-271 *)
(** voteline['prefs'].items(): the candidates of a voteline (core.py:252 and 259) *)
Definition line_items (v : json) : result (dict json) := let* p := jitem v (u "prefs") in jitems p.
(** core.py:253: is "rating" a key of the dict? *)
Definition entry_rated (j : json) : bool := match j with JObj d => dmem (u "rating") d | _ => false end.
(** core.py:265-270, one candidate; the flag says whether is_ranking_to_rating is set *)
Definition add_rating_obj (has : bool) (numcands : Z) (j : json) : result (json * bool) :=
  let* d := jitems j in
  if has_true_key "rating" d then Ok (j, false)
  else if has then Ok (JObj (dset (u "rating") (JInt 0) d), false)
  else
    let* r := jitem j (u "rank") in
    match r with
    | JInt z => Ok (JObj (dset (u "rating") (JInt (numcands - z)) d), true)
    | JBool b => Ok (JObj (dset (u "rating") (JInt (numcands - (if b then 1 else 0))) d), true)
    | _ => Err TypeError
    end.
(** v[k] = x (core.py:259-270, 678) *)
Definition put_item (v : json) (k : str) (x : json) : result json := match v with JObj l => Ok (JObj (dset k x l)) | _ => Err TypeError end.
(** core.py:243-271 with add_ratings=True; the dicts of the votelines are changed in place *)
Definition add_ratings_obj (m : jabmod) (vls : list json) : result objstate :=
  let* items := mapM line_items vls in
  let has := existsb (fun ps => existsb (fun cj => entry_rated (snd cj)) ps) items in
  let numcands := Z.of_nat (length (j_candidates m)) in
  let* out := mapM (fun v =>
      let* ps := line_items v in
      let* rs := mapM (fun cj => let* r := add_rating_obj has numcands (snd cj) in Ok (fst cj, r)) ps in
      let* v' := put_item v (u "prefs") (JObj (map (fun cr => (fst cr, fst (snd cr))) rs)) in
      Ok (v', existsb (fun cr => snd (snd cr)) rs)) vls in
  Ok (Jabmod (if existsb snd out then dset k_is_ranking_to_rating (JBool true) (j_metadata m) else j_metadata m) (j_candidates m) [], map fst out).

(** A number (core.py:142 and 675); True and False are 1 and 0 *)
Definition json_number (j : json) : result Z := match j with JInt z => Ok z | JBool b => Ok (if b then 1 else 0) | _ => Err TypeError end.
(** The object built by core.py:203-206: candidates, metadata and votelines, in this order; core.py:144 reassigns votelines. *)
Definition emptyish_object (md : dict json) (cands : dict json) (vls : list json) : json :=
  JObj (dset (u "votelines") (JArr vls) (dset (u "metadata") (JObj md) (dset (u "candidates") (JObj cands) []))).
(** convert_abif_to_jabmod, core.py:60-150 *)
Definition convert_abif_obj (inputstr : str) (cleanws add_ratings storecomments : bool) : result json :=
  match inputstr with
  | [] => Err VotelineExn
  | _ =>
      let* st := foldM (process_line_obj cleanws storecomments) (enumerate 0 (splitlines inputstr)) (emptyish, []) in
      match snd st with
      | [] => Err VotelineExn
      | _ =>
          let* st1 := if add_ratings then add_ratings_obj (fst st) (snd st) else Ok st in
          let* keyed := mapM (fun v => let* q := jitem v (u "qty") in let* z := json_number q in Ok (z, v)) (snd st1) in
          Ok (emptyish_object (j_metadata (fst st1)) (map (fun kv => (fst kv, JStr (snd kv))) (j_candidates (fst st1))) (map snd (sort_desc fst keyed)))
      end
  end.

(** ** nameq.py:22-50 *)
(** nameq.py:33-44: one line, with its candidates *)
Definition nameq_line_obj (line : str) : result (json * list str) :=
  let qs := strip line in
  let qp := parse_qs qs in
  let* prefs := foldM (fun d kv => let* r := match snd kv with v0 :: _ => py_int v0 | [] => Err IndexError end in
                                   Ok (dset (fst kv) (dset (u "rank") (JInt r) []) d)) qp [] in
  Ok (JObj [(u "qty", JInt 1); (u "prefs", jobjs prefs); (u "nameq", JStr qs)], map fst qp).
(** convert_nameq_to_jabmod, nameq.py:22-50: here metadata comes before candidates *)
Definition convert_nameq_obj (inputstr : str) : result json :=
  let* lines := mapM nameq_line_obj (splitlines inputstr) in
  let cands := fold_left (fun t l => fold_left (fun t k => dset k (JStr k) t) (snd l) t) lines [] in
  let md := dset (u "version") (JStr (u "0.1")) [] in
  Ok (JObj [(u "metadata", JObj (dset k_ballotcount (JInt (Z.of_nat (length lines))) md)); (u "candidates", JObj cands); (u "votelines", JArr (map fst lines))]).

(** ** consolidate_jabmod_voteline_objects, core.py:667-679 *)
(** sort_keys=True of json.dumps (core.py:672): the keys of every dict in order *)
Fixpoint sort_keys (j : json) : json :=
  match j with
  | JArr l => JArr (map sort_keys l)
  | JObj l => JObj (sort_by (fun a b => str_leb (fst a) (fst b)) (map (fun kv => (fst kv, sort_keys (snd kv))) l))
  | _ => j
  end.
(** core.py:671-675: one voteline *)
Definition consolidate_obj_step (acc : dict obj) (v : json) : result (dict obj) :=
  let* p := jitem v (u "prefs") in
  let k := json_dumps (sort_keys p) in
  let acc1 := if dmem k acc then acc else dset k [(u "prefs", p); (u "qty", JInt 0)] acc in
  let* w := dgetE k acc1 in
  let* q0 := dgetE (u "qty") w in
  let* z0 := json_number q0 in
  let* q := jitem v (u "qty") in
  let* z := json_number q in
  Ok (dset k (dset (u "qty") (JInt (z0 + z)) w) acc1).
(** consolidate_jabmod_voteline_objects, core.py:667-679 *)
Definition consolidate_obj (j : json) : result json :=
  let* vs := jitem j (u "votelines") in
  let* l := jiter vs in
  let* acc := foldM consolidate_obj_step l [] in
  put_item j (u "votelines") (JArr (map (fun kd => JObj (snd kd)) acc)).

(** ** sftxt.py:279-334 *)
(** sftxt.py:320-326 *)
Definition prefs_step_obj (prefs : dict obj) (p : sf_vote) : dict obj :=
  let tok := match truthy (sv_cand p) with Some s => sf_short_token s | None => k_none end in
  if negb (str_eqb tok k_none) then dset tok (dset (u "rank") (JInt (sv_rank p)) []) prefs else prefs.
(** sftxt.py:309-329 without verbose: prefs before qty *)
Definition ballot_obj (b : sf_ballot) : result json :=
  let* votes := of_option KeyError (sb_votes b) in
  Ok (JObj [(u "prefs", jobjs (fold_left prefs_step_obj votes [])); (u "qty", JInt 1)]).
(** convert_sftxt_to_jabmod, sftxt.py:279-334, without verbose; the candidate without a name is null *)
Definition convert_sftxt_obj (master ballots : str) : result json :=
  let* lookuplines := read_sftxt_blob MASTERLOOKUP_FIELDSPEC master in
  let* (pool, contestid) := lookuplines2candpool lookuplines None in
  let* recs := convert_to_ballots pool contestid (read_sftxt_str BALLOTIMAGE_FIELDSPEC ballots) in
  let* vls := mapM ballot_obj recs in
  let metadata := dset k_ballotcount (JInt (Z.of_nat (length vls)))
                    (dset (u "contestid") (match contestid with Some c => JStr c | None => JNull end) (j_metadata emptyish)) in
  consolidate_obj (emptyish_object metadata (map (fun kn => (fst kn, match snd kn with Some n => JStr n | None => JNull end)) (cand_table 0 pool [])) vls).

(** ** abiftool.py *)
(** abiftool.py:163-186: the object abifmodel.  For jabmod it is whatever JSON value the file holds. *)
Definition load_obj (s : surroundings) (a : args) (fmt inputstr : str) (blobs : list str) : result json :=
  if str_eqb fmt (u "abif") then convert_abif_obj inputstr (a_cleanws a) (a_add_scores a) (has "jcomments" (modifiers a))
  else if str_eqb fmt (u "debtally") then let* raw := convert_debtally_to_abif (s_sha1 s) inputstr [] in convert_abif_obj raw false false false
  else if str_eqb fmt (u "jabmod") then json_loads inputstr
  else if str_eqb fmt (u "nameq") then convert_nameq_obj inputstr
  else if str_eqb fmt (u "preflib") then let* raw := convert_preflib_str_to_abif inputstr in convert_abif_obj raw false false false
  else if str_eqb fmt (u "sftxt") then let* b0 := blob 0 blobs in let* b1 := blob 1 blobs in convert_sftxt_obj b0 b1
  else convert_widj_to_jabmod (JStr inputstr).
(** main, abiftool.py:124-280, after argparse.  For -t jabmod (abiftool.py:240) the object is carried through and printed; for the
    other formats it is [main]. *)
Definition main_exact (s : surroundings) (rn : rendering) (a : args) : outcome :=
  if negb (str_eqb (a_to a) (u "jabmod")) then main s rn a
  else
    match input_format a with
    | Err e => Outcome [] [] (Uncaught e)
    | Ok fmt =>
        if negb (memb fmt validinfmts) then Outcome [] (println (u "Error: Unsupported input format '" ++ fmt ++ u "'")) Done
        else
          match read_input s a with
          | (reads, Missing f) => Outcome reads (println (u "The file '" ++ f ++ u "' doesn't exist.")) Exited
          | (reads, Failed e) => Outcome reads [] (Uncaught e)
          | (reads, Got inputstr blobs) =>
              match load_obj s a fmt inputstr blobs with
              | Err e => Outcome reads (match e with VotelineExn => if str_eqb fmt (u "abif") then println (u "ERROR: " ++ voteline_message inputstr) else [] | _ => [] end) (Uncaught e)
              | Ok j =>
                  match (if has "consolidate" (modifiers a) then consolidate_obj j else Ok j) with
                  | Ok j' => Outcome reads (println (dumps_indent 4 j')) Done
                  | Err e => Outcome reads [] (Uncaught e)
                  end
              end
          end
    end.
(** abiftool.py:93-287, the whole program, with the objects. *)
Definition abiftool_exact (s : surroundings) (rn : rendering) (help : str) (argv : list str) : process :=
  match parse_args argv with
  | Datatypes.inr UsageError => Process [] [] 2
  | Datatypes.inr HelpShown => Process [] help 0
  | inl (a, debug) =>
      let o := main_exact s rn a in
      Process (o_reads o) (o_stdout o ++ (if debug && finished a o then debug_line else [])) (exit_status (o_ending o))
  end.
