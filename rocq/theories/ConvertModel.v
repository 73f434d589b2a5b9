(** * ConvertModel: abiflib/util.py:26-60 and abiflib/widjfuncs.py *)

From Verif Require Import PyBase Jabmod ParserModel WriterModel DebtallyModel PreflibModel SftxtModel JsonText JsonParse JabmodJson.
Local Open Scope Z_scope.
Local Open Scope res_scope.

(** ** Electowidget files *)
(** PRUNED_WIDJ_FIELDS, widjfuncs.py:18-25 *)
Definition PRUNED_WIDJ_FIELDS : list str :=
  [ u "display_parameters"; u "display_results"; u "display_ballots"; u "allow_voting"; u "ballot_type"; u "max_rating"; u "min_rating";
    u "count_subpage_ballots"; u "count_inline_ballots"; u "election_methods"; u "inline_ballot_type"; u "candidates"; u "inline_ballots" ].
(** v[k] for a string k: TypeError unless v is a dict (widjfuncs.py:42-61) *)
Definition jitem (v : json) (k : str) : result json := match v with JObj l => dgetE k l | _ => Err TypeError end.
(** v.items(): AttributeError unless v is a dict (widjfuncs.py:42 and 60) *)
Definition jitems (v : json) : result (dict json) := match v with JObj l => Ok l | _ => Err AttributeError end.
(** for x in v, when the loop body takes list elements; a dict gives its keys, a string its characters (widjfuncs.py:37 and 55) *)
Definition jiter (v : json) : result (list json) :=
  match v with
  | JArr l => Ok l
  | JObj l => Ok (map (fun kv => JStr (fst kv)) l)
  | JStr s => Ok (map (fun c => JStr [c]) s)
  | _ => Err TypeError
  end.
(** _map_widj_ballots, widjfuncs.py:51-64 *)
Definition widj_ballot (ballot : json) : result json :=
  let* qty := jitem ballot (u "qty") in
  let* vote := jitem ballot (u "vote") in
  let* items := jitems vote in
  Ok (JObj [(u "qty", qty); (u "prefs", JObj (dict_of_pairs (map (fun cr => (fst cr, JObj [(u "rating", snd cr)])) items)))]).
(** _map_widj_ballots, widjfuncs.py:51-64 *)
Definition map_widj_ballots (widgetjson : json) : result json :=
  let* ballots := jitem widgetjson (u "inline_ballots") in
  let* l := jiter ballots in
  let* vls := mapM widj_ballot l in
  Ok (JArr vls).
(** widjfuncs.py:37-39.  Simplification: a widgetjson that is no dict is a TypeError (a list holding ints might be an
    IndexError). *)
Definition widj_metadata (version : json) (widgetjson : json) : result (dict json) :=
  match widgetjson with
  | JObj l => Ok (fold_left (fun d kv => if memb (fst kv) PRUNED_WIDJ_FIELDS then d else dset (fst kv) (snd kv) d) l [(u "version", version)])
  | _ => Err TypeError
  end.
(** convert_widj_to_jabmod, widjfuncs.py:28-48, in a module whose global names are [globals]. *)
Definition convert_widj_in (globals : dict json) (widgetjson : json) : result json :=
  let* version := of_option NameError (dget (u "ABIF_VERSION") globals) in
  let* md := widj_metadata version widgetjson in
  let* cands := jitem widgetjson (u "candidates") in
  let* items := jitems cands in
  let* names := mapM (fun kv => let* n := jitem (snd kv) (u "display_name") in Ok (fst kv, n)) items in
  let* vls := map_widj_ballots widgetjson in
  Ok (JObj [(u "metadata", JObj md); (u "candidates", JObj (dict_of_pairs names)); (u "votelines", vls)]).
(** The data names of widjfuncs.py: the file imports nothing. *)
Definition widjfuncs_globals : dict json := [(u "PRUNED_WIDJ_FIELDS", JArr (map JStr PRUNED_WIDJ_FIELDS))].
(** convert_widj_to_jabmod, widjfuncs.py:28-48 *)
Definition convert_widj_to_jabmod (widgetjson : json) : result json := convert_widj_in widjfuncs_globals widgetjson.

(** ** Conversions *)
(** A Python object as a jabmod; simplification: an object without counterpart in the model is a TypeError. (abiftool.py:177 and 186, util.py:39) *)
Definition as_jabmod (j : json) : result jabmod := of_option TypeError (jabmod_of_json j).
(** j[k] = f(j[k]) *)
Definition at_key (k : str) (f : json -> json) (j : json) : json :=
  match j with JObj l => JObj (map (fun kv => if str_eqb (fst kv) k then (fst kv, f (snd kv)) else kv) l) | _ => j end.
(** A candidate whose name is null (sftxt.py:305 stores None, and json.dumps writes it so) is given the text "None", which is what an
    f-string makes of it; [null_named] lists these candidates. *)
Definition is_null (j : json) : bool := match j with JNull => true | _ => false end.
(** sftxt.py:306: the text an f-string makes of a missing name. *)
Definition none_name (j : json) : json := if is_null j then JStr (u "None") else j.
(** The same for all candidates of the jabmod (see above). (sftxt.py:306) *)
Definition name_nulls (j : json) : json :=
  at_key (u "candidates") (fun c => match c with JObj l => JObj (map (fun kv => (fst kv, none_name (snd kv))) l) | _ => c end) j.
(** The candidates of a jabmod whose name is null (see above). (sftxt.py:306) *)
Definition null_named (j : json) : list str :=
  match j with
  | JObj l => match member "candidates" l with Some (JObj cs) => map fst (filter (fun kv => is_null (snd kv)) cs) | _ => [] end
  | _ => []
  end.
(** A jabmod as convert_sftxt_to_jabmod returns it; a name that is None is written as the text "None" (what abiftool does with it
    where that makes a difference: render_unnamed in CliModel). (sftxt.py:279-334) *)
Definition jabmod_of_sf (m : sf_jabmod) : jabmod :=
  Jabmod (sf_metadata m) (map (fun kn => (fst kn, match snd kn with Some n => n | None => u "None" end)) (sf_candidates m)) (sf_votelines m).
(** inputblobs[i], util.py:29-46 *)
Definition blob (i : nat) (inputblobs : list str) : result str := of_option IndexError (nth_error inputblobs i).

(** convert_text_to_abif, util.py:26-51.  sys.exit() after the message of line 33 is SystemExit. *)
Definition convert_text_to_abif (sha1 : hash) (fromfmt : str) (inputblobs : list str) (cleanws add_ratings : bool) (metadata : dict str) : result str :=
  let* abifmodel :=
    if str_eqb fromfmt (u "abif") then
      let* b := blob 0 inputblobs in
      match convert_abif_to_jabmod b cleanws add_ratings false with Err VotelineExn => Err SystemExit | r => r end
    else if str_eqb fromfmt (u "debtally") then
      let* b := blob 0 inputblobs in let* raw := convert_debtally_to_abif sha1 b metadata in convert_abif_to_jabmod raw false false false
    else if str_eqb fromfmt (u "jabmod") then
      let* b := blob 0 inputblobs in let* j := json_loads b in as_jabmod (name_nulls j)
    else if str_eqb fromfmt (u "preflib") then
      let* b := blob 0 inputblobs in let* raw := convert_preflib_str_to_abif b in convert_abif_to_jabmod raw false false false
    else if str_eqb fromfmt (u "sftxt") then
      let* b0 := blob 0 inputblobs in let* b1 := blob 1 inputblobs in let* m := convert_sftxt_to_jabmod b0 b1 false in Ok (jabmod_of_sf m)
    else if str_eqb fromfmt (u "widj") then
      let* b := blob 0 inputblobs in let* j := convert_widj_to_jabmod (JStr b) in as_jabmod j
    else let* b := blob 0 inputblobs in Err VotelineExn in
  convert_jabmod_to_abif abifmodel.

(** candlist_text_from_abif, util.py:54-60 *)
Definition candlist_text (m : jabmod) : str :=
  u "Candidates:" ++ [10%N] ++
  concat (map (fun kv => u "  " ++ fst kv ++ u ": " ++ snd kv ++ [10%N])
    (sort_by (fun x y => if str_eqb (fst x) (fst y) then str_leb (snd x) (snd y) else str_leb (fst x) (fst y)) (j_candidates m))).
