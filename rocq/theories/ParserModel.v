(** * ParserModel: abiflib/abifregex.py and the ABIF reader of abiflib/core.py *)

From Verif Require Import PyBase Jabmod Regex WordTable ScoreModel.
Local Open Scope Z_scope.
Local Open Scope res_scope.

(** Characters. *)
(* The characters with a meaning in ABIF: the patterns of abifregex.py:18-82 and core.py:278-345. *)
Definition ch_hash : N := 35.    (* # *)
Definition ch_colon : N := 58.   (* : *)
Definition ch_lbr : N := 91.     (* [ *)
Definition ch_rbr : N := 93.     (* ] *)
Definition ch_gt : N := 62.      (* > *)
Definition ch_eq : N := 61.      (* = *)
Definition ch_comma : N := 44.   (* , *)
Definition ch_slash : N := 47.   (* / *)
Definition ch_dq : N := 34.      (* double quote *)
Definition ch_sq : N := 39.      (* single quote *)
Definition ch_lbrace : N := 123. (* { *)
Definition ch_rbrace : N := 125. (* } *)

(** COMMENT_REGEX, abifregex.py:18-25.  Groups: 1 beforesep, 2 comsep, 3 whitespace, 4 aftersep. *)
Definition COMMENT_REGEX : regex := RSeqs
  [ RGrp 1 (RStar (none_of [ch_hash]));
    RGrp 2 (RPlus (N.eqb ch_hash));
    RGrp 3 (RStar is_space);
    RGrp 4 (RStar any_char);
    REnd ].

(** VOTERID_REGEX, abifregex.py:27-30.  Group 2 voterid. *)
Definition VOTERID_REGEX : regex := RSeqs
  [ RGrp 1 (RWord (u "##VID:")); RGrp 2 (RPlus non_space) ].

(** METADATA_REGEX, abifregex.py:32-48. *)
Definition quotes : str := [ch_sq; ch_dq].
(** abifregex.py:32-48: the characters of a key *)
Definition meta_key_char (c : N) : bool := is_word c || is_space c.
(** abifregex.py:32-48: the characters of a value *)
Definition meta_val_char (c : N) : bool := is_word c || is_space c || one_of (u ",.()-?:'/") c.
(** METADATA_REGEX, abifregex.py:32-48 *)
Definition METADATA_REGEX : regex := RSeqs
  [ RLit ch_lbrace; RStar is_space; ROpt (one_of quotes);
    RGrp 1 (RPlus meta_key_char);
    RStar is_space; ROpt (one_of quotes); RStar is_space;
    RLit ch_colon;
    RStar is_space; ROpt (one_of quotes);
    RGrp 2 (RPlus meta_val_char);
    RStar is_space; ROpt (one_of quotes); RStar is_space;
    RLit ch_rbrace; REnd ].

(** CANDLINE_REGEX, abifregex.py:50-61. *)
Definition CANDLINE_REGEX : regex := RSeqs
  [ RLit ch_eq; RStar is_space; ROpt (one_of [ch_dq; ch_lbr]);
    RGrp 1 (RStar (none_of [ch_colon; ch_dq; ch_rbr]));
    ROpt (one_of [ch_dq; ch_lbr]);
    RLit ch_colon; ROpt (N.eqb ch_lbr);
    RGrp 2 (RStar (none_of [ch_rbr]));
    ROpt (N.eqb ch_rbr); REnd ].

(** VOTELINE_REGEX, abifregex.py:63. *)
Definition VOTELINE_REGEX : regex := RSeqs
  [ RGrp 1 (RPlus is_digit); RLit ch_colon; RGrp 2 (RStar any_char); REnd ].

(** ** Preference strings *)

(* The delimiters of core.py:278. *)
Definition is_delim (c : N) : bool := one_of [ch_lbr; ch_rbr; ch_gt; ch_eq; ch_comma] c.

(** re.split on one captured character among [ ] > = and comma, core.py:278: pieces and delimiters
    alternate. *)
Fixpoint split_delims (s : str) : list str :=
  match s with
  | [] => [[]]
  | c :: r =>
      if is_delim c then [] :: [c] :: split_delims r
      else match split_delims r with
           | [] => [[c]]
           | p :: ps => (c :: p) :: ps
           end
  end.

(** The quoted candidate followed by a slash and digits (core.py:317), and without (core.py:321). *)
Definition QUOTED_RATED : regex := RSeqs
  [ RStar is_space; RLit ch_dq; RGrp 1 (RStar (none_of [ch_dq])); RLit ch_dq; RLit ch_slash; RGrp 2 (RPlus is_digit) ].
(** The pattern of core.py:321 *)
Definition QUOTED : regex := RSeqs
  [ RStar is_space; RLit ch_dq; RGrp 1 (RStar (none_of [ch_dq])); RLit ch_dq ].

(** re.search and re.sub of a slash and digits at the end (core.py:325, 329): the text before the
    match and the digits.  The leftmost start is found by scanning; digits contain no slash, so
    there is at most one match.  [None]: no match. *)
Definition SLASH_RATING : regex := RSeqs [ RLit ch_slash; RGrp 1 (RPlus is_digit); REnd ].
(** The pattern of core.py:325 and 329 searched in the token (see above) *)
Fixpoint split_rating (tok : str) : option (str * str) :=
  match tok with
  | [] => None
  | c :: r =>
      match re_match SLASH_RATING tok with
      | Some (g, _) => Some ([], group 1 g)
      | None => match split_rating r with
                | Some (b, ds) => Some (c :: b, ds)
                | None => None
                end
      end
  end.

(** core.py:288-333: does the next character satisfy [p]? *)
Definition starts_with (p : N -> bool) (s : str) : bool :=
  match s with c :: _ => p c | [] => false end.

(** retval[-1] = x: IndexError on an empty list. (core.py:307 and 330) *)
Definition set_last {A} (x : A) (l : list A) : result (list A) :=
  match l with [] => Err IndexError | _ => Ok (removelast l ++ [x]) end.

(** Loop state of _extract_candprefs_from_prefstr.  currating is always None (core.py:283, 292).
    [x_ccand] is only read after it has been set (its Python initial value None is [[]] here: it is
    read at core.py:330 only when retval is non-empty or the line raises IndexError). *)
Record xstate := XState {
  x_ret : list (str * option ratingval);
  x_inbr : bool;
  x_inq : bool;
  x_qtok : str;
  x_ccand : str
}.

(** One iteration, core.py:286-336 ([tok] already stripped). *)
Definition xstep (st : xstate) (tok : str) : result xstate :=
  let 'XState ret inbr inq qtok ccand := st in
  if inbr || inq then
    if starts_with (N.eqb ch_lbr) tok && negb inbr then Ok (XState ret true inq [] ccand)
    else if starts_with (N.eqb ch_rbr) tok && inbr then
      Ok (XState (ret ++ [(qtok, None)]) false inq [] qtok)
    else if starts_with (N.eqb ch_dq) (lstrip tok) then
      if inq then let* ret' := set_last (qtok, None) ret in Ok (XState ret' inbr false [] ccand)
      else Ok (XState ret inbr true [] ccand)
    else match tok with
         | [] => Err TypeError       (* ABIFVotelineException(message=...) lacks its argument *)
         | _ => Ok (XState ret inbr inq (qtok ++ tok) ccand)
         end
  else
    match re_match QUOTED_RATED tok with
    | Some (g, _) => Ok (XState (ret ++ [(group 1 g, Some (RStr (group 2 g)))]) inbr inq qtok (group 1 g))
    | None =>
        match re_match QUOTED tok with
        | Some (g, _) => Ok (XState ret inbr inq qtok (group 1 g))     (* not appended *)
        | None =>
            if starts_with (fun c => negb (is_delim c)) (lstrip tok) then
              let '(ctok, ds) := match split_rating tok with Some (b, d) => (b, Some d) | None => (tok, None) end in
              let '(ret1, ccand1) := match ctok with [] => (ret, ccand) | _ => (ret ++ [(ctok, None)], ctok) end in
              match ds with
              | Some d =>
                  let* z := py_int d in
                  let* ret2 := set_last (ccand1, Some (RInt z)) ret1 in
                  Ok (XState ret2 inbr inq qtok ccand1)
              | None => Ok (XState ret1 inbr inq qtok ccand1)
              end
            else if starts_with (N.eqb ch_lbr) tok then Ok (XState ret true inq qtok ccand)
            else Ok st     (* core.py:333-334 is unreachable: such a token matches line 324 *)
        end
    end.

(** _extract_candprefs_from_prefstr, core.py:274-337 *)
Definition extract_candprefs (prefstr : str) : result (list (str * option ratingval)) :=
  let* st := foldM (fun st tok => xstep st (strip tok)) (split_delims prefstr) (XState [] false false [] []) in
  Ok (x_ret st).

(** The delimiters outside bracketed parts: re.subn of each bracketed part by [PLACEHOLDER] and the
    characters > , = of the result (core.py:344-345).  A '[' opens a bracketed part only if a ']'
    follows. *)
Fixpoint delims (inside : bool) (s : str) : list N :=
  match s with
  | [] => []
  | c :: r =>
      if inside then delims (negb (N.eqb c ch_rbr)) r
      else if N.eqb c ch_lbr && existsb (N.eqb ch_rbr) r then delims true r
      else if one_of [ch_gt; ch_comma; ch_eq] c then c :: delims false r
      else delims false r
  end.

(** The three values of core.py:346-351 *)
Inductive rankmode := MRank | MRate | MRankOne.

(** _determine_rank_or_rate, core.py:340-352 *)
Definition rank_or_rate (prefstr : str) : rankmode * list N :=
  let ds := delims false prefstr in
  (match ds with
   | d :: _ => if N.eqb d ch_comma then MRate else MRank
   | [] => MRankOne
   end, ds).

(** core.py:220 and 227: the rating as an int, 0 if there is none *)
Definition rating_or_0 (p : pref) : result Z :=
  match p_rating p with Some r => rating_int r | None => Ok 0 end.

(** The rank-assigning loop of _add_ranks_to_prefjab_by_rating, core.py:223-239.  The list carries
    each candidate with int(rating), already sorted; [prev] is (prevrate, prevrank). *)
Fixpoint assign_ranks (prev : option (Z * Z)) (cs : list (str * Z)) (prefs : dict pref) : result (dict pref) :=
  match cs with
  | [] => Ok prefs
  | (c, rate) :: r =>
      let* rank :=
        match prev with
        | None => Ok 1
        | Some (prevrate, prevrank) =>
            if rate <? prevrate then Ok (prevrank + 1)
            else if rate =? prevrate then Ok prevrank
            else Err TypeError        (* ABIFVotelineException without its value argument *)
        end in
      let* prefs' :=
        dmodE c (fun p => match p_rank p with
                          | Some z => if z =? 0 then set_rank rank p else p
                          | None => set_rank rank p
                          end) prefs in
      assign_ranks (Some (rate, rank)) r prefs'
  end.

(** _add_ranks_to_prefjab_by_rating, core.py:213-240.  The per-candidate dicts are shared with the
    input in Python; the caller only uses the result. *)
Definition add_ranks_by_rating (prefs : dict pref) : result (dict pref) :=
  let* keyed := mapM (fun kv => let* z := rating_or_0 (snd kv) in Ok (fst kv, z)) prefs in
  assign_ranks None (sort_desc snd keyed) prefs.

(** The loop of _parse_prefstr_to_dict, core.py:370-385.  [n] is len(candpreflist), [i] the index,
    [rank] the current rank; dicts are rebuilt in place. *)
Fixpoint prefs_loop (mode : rankmode) (ds : list N) (n i : nat) (rank : Z)
    (cps : list (str * option ratingval)) (prefs : dict pref) : result (dict pref) :=
  match cps with
  | [] => Ok prefs
  | (cand, rating) :: r =>
      let p0 := match rating with
                | Some rv => if rating_truthy rv then set_rating rv empty_pref else empty_pref
                | None => empty_pref
                end in
      let notlast := (i <? n - 1)%nat in
      let* (p1, rank1) :=
        match mode with
        | MRankOne => Ok (set_rank 1 p0, 1)
        | MRank =>
            if notlast then
              let* d := of_option IndexError (nth_error ds i) in
              if N.eqb d ch_gt then Ok (set_nextdelim d (set_rank rank p0), rank + 1)
              else Ok (set_rank rank p0, rank)
            else Ok (set_rank rank p0, rank)
        | MRate => Ok (p0, rank)
        end in
      let* p2 := if notlast then let* d := of_option IndexError (nth_error ds i) in Ok (set_nextdelim d p1)
                 else Ok p1 in
      prefs_loop mode ds n (S i) rank1 r (dset cand p2 prefs)
  end.

(** _parse_prefstr_to_dict, core.py:355-396: prefs and candkeys.  The second call of
    add_ranks (core.py:390-392) is kept. *)
Definition parse_prefstr (prefstr : str) : result (dict pref * list str) :=
  let '(mode, ds) := rank_or_rate prefstr in
  let* cps := extract_candprefs prefstr in
  let* prefs0 := prefs_loop mode ds (length cps) 0 1 cps [] in
  let* prefs1 := add_ranks_by_rating prefs0 in
  let candkeys := map fst cps in
  match candkeys with
  | [] => Ok ([], [])
  | c0 :: _ =>
      let* p := dgetE c0 prefs1 in
      let has_rating := match p_rating p with Some r => rating_truthy r | None => false end in
      let has_rank := match p_rank p with Some z => negb (z =? 0) | None => false end in
      if has_rating && negb has_rank then
        let* prefs2 := add_ranks_by_rating prefs1 in Ok (prefs2, candkeys)
      else Ok (prefs1, candkeys)
  end.

(** ** Lines *)

(* The key of core.py:163-165. *)
Definition k_comments : str := u "comments".
(** The key of core.py:181 *)
Definition k_ballotcount_abif : str := u "ballotcount_abif_metadata".

(** core.py:93-101: beforesep and the comment text, if there is a comment. *)
Definition strip_comment (line : str) : str * option str :=
  match re_match COMMENT_REGEX line with
  | Some (g, _) => (group 1 g, Some (group 2 g ++ group 3 g ++ group 4 g))
  | None => (line, None)
  end.

(** _process_abif_comment_line, core.py:153-166.  Appending to a 'comments' value that is a string
    (set by a "{comments: ...}" line) is an AttributeError. *)
Definition process_comment (m : jabmod) (linecomment : option str) (linenum : Z) (storecomments : bool) : result jabmod :=
  match linecomment with
  | Some ((_ :: _) as c) =>
      if storecomments then
        let entry := JArr [JInt linenum; JStr c] in
        match dget k_comments (j_metadata m) with
        | None => Ok (Jabmod (dset k_comments (JArr [entry]) (j_metadata m)) (j_candidates m) (j_votelines m))
        | Some (JArr l) => Ok (Jabmod (dset k_comments (JArr (l ++ [entry])) (j_metadata m)) (j_candidates m) (j_votelines m))
        | Some _ => Err AttributeError
        end
      else Ok m
  | _ => Ok m
  end.

(** _process_abif_metadata, core.py:169-186 *)
Definition process_metadata (mkey mvalue : str) (m : jabmod) : jabmod :=
  let k := if str_eqb mkey k_ballotcount then k_ballotcount_abif else mkey in
  Jabmod (dset k (JStr mvalue) (j_metadata m)) (j_candidates m) (j_votelines m).

(** _process_abif_candline, core.py:189-196 *)
Definition process_candline (tok desc : str) (m : jabmod) : jabmod :=
  Jabmod (j_metadata m) (dset tok desc (j_candidates m)) (j_votelines m).

(** core.py:427-429 *)
Definition merge_cands (cands : list str) (table : dict str) : dict str :=
  fold_left (fun t x => if dmem x t then t else dset x x t) cands table.

(** _process_abif_prefline, core.py:399-430 *)
Definition process_prefline (qty prefstr : str) (linecomment : option str) (m : jabmod) : result jabmod :=
  let voterid := match linecomment with
                 | Some c => match re_match VOTERID_REGEX c with
                             | Some (g, _) => Some (group 2 g)
                             | None => None
                             end
                 | None => None
                 end in
  let* q := py_int qty in
  let* bc := dgetE k_ballotcount (j_metadata m) in
  let* bcz := match bc with JInt z => Ok z | JBool b => Ok (if b then 1 else 0) | _ => Err TypeError end in
  let md := dset k_ballotcount (JInt (bcz + q)) (j_metadata m) in
  let* (prefs, candkeys) := parse_prefstr prefstr in
  Ok (Jabmod md (merge_cands candkeys (j_candidates m))
        (j_votelines m ++ [Voteline q prefs linecomment (Some (rstrip prefstr)) voterid None])).

(** The body of the loop of convert_abif_to_jabmod, core.py:85-130. *)
Definition process_line (cleanws storecomments : bool) (m : jabmod) (il : Z * str) : result jabmod :=
  let '(i, fullline0) := il in
  let fullline := if cleanws then lstrip fullline0 else fullline0 in
  let '(strpdline, linecomment) := strip_comment fullline in
  let* m1 := process_comment m linecomment i storecomments in
  match re_match CANDLINE_REGEX strpdline with
  | Some (g, _) => Ok (process_candline (group 1 g) (group 2 g) m1)
  | None =>
      match re_match METADATA_REGEX strpdline with
      | Some (g, _) => Ok (process_metadata (group 1 g) (group 2 g) m1)
      | None =>
          match re_match VOTELINE_REGEX strpdline with
          | Some (g, _) => process_prefline (group 1 g) (group 2 g) linecomment m1
          | None => Ok m1
          end
      end
  end.

(** enumerate(l, i), core.py:85 *)
Fixpoint enumerate {A} (i : Z) (l : list A) : list (Z * A) :=
  match l with
  | [] => []
  | x :: r => (i, x) :: enumerate (i + 1) r
  end.

(** convert_abif_to_jabmod, core.py:60-150.  extradata is only logged, and not represented. *)
Definition convert_abif_to_jabmod (inputstr : str) (cleanws add_ratings storecomments : bool) : result jabmod :=
  match inputstr with
  | [] => Err VotelineExn
  | _ =>
      let* m := foldM (process_line cleanws storecomments) (enumerate 0 (splitlines inputstr)) emptyish in
      match j_votelines m with
      | [] => Err VotelineExn
      | _ =>
          let* m1 := if add_ratings then add_ratings_to_votelines m true else Ok m in
          Ok (Jabmod (j_metadata m1) (j_candidates m1) (sort_desc v_qty (j_votelines m1)))
      end
  end.
