(** * SftxtModel: the San Francisco ballot image reader, abiflib/sftxt.py *)

From Verif Require Import PyBase Jabmod Regex JsonText WriterModel DebtallyModel.
Local Open Scope Z_scope.
Local Open Scope res_scope.

(** ** Field specifications *)

(** sftxt.py:24-34 and 36-44.  [lines] joins with newlines. *)
Definition text_lines (l : list str) : str := flat_map (fun x => x ++ [10%N]) l.
(** sftxt.py:24-34 *)
Definition BALLOTIMAGE_FIELDSPEC : str := text_lines
  [ u "fieldname,lastchar,length"; u "Contest_Id,7,7"; u "Pref_Voter_Id,16,9"; u "Serial_Number,23,7"; u "Tally_Type_Id,26,3";
    u "Precinct_Id,33,7"; u "Vote_Rank,36,3"; u "Candidate_Id,43,7"; u "Over_Vote,44,1"; u "Under_Vote,45,1" ].
(** sftxt.py:36-44 *)
Definition MASTERLOOKUP_FIELDSPEC : str := text_lines
  [ u "fieldname,lastchar,length"; u "Record_Type,10,10"; u "Id,17,7"; u "Description,67,50"; u "List_Order,74,7";
    u "Candidates_Contest_Id,81,7"; u "Is_WriteIn,82,1"; u "Is_Provisional,83,1" ].

(** csv.DictReader over a StringIO: the rows after the header, as dicts.  Simplification: texts without
    quotes or carriage returns; a row shorter than the header lacks the keys (Python: None). (sftxt.py:60-90) *)
Definition csv_dicts (text : str) : list (dict str) :=
  match filter (fun l => match l with [] => false | _ => true end) (splitlines text) with
  | [] => []
  | header :: rows => map (fun row => combine (split_on 44 header) (split_on 44 row)) rows
  end.

(** .{n} (sftxt.py:60-90) *)
Fixpoint RRep (n : nat) (p : N -> bool) : regex :=
  match n with O => REps | S k => RSeq (RChr p) (RRep k p) end.

(** sftxt_read_fieldspec, sftxt.py:60-90.  The test of line 87 runs after [pos] was set to [lastchar], so
    it compares 0 with the length; its message asks for a second argument of format(), an IndexError.
    Simplification: lastchar not smaller than the one before (otherwise the text ".{-3}" is no repetition). *)
Fixpoint spec_loop (pos : Z) (i : nat) (rows : list (dict str)) : result (list regex * list str) :=
  match rows with
  | [] => Ok ([], [])
  | field :: r =>
      let* lastchar := of_option KeyError (dget (u "lastchar") field) in
      let* l := py_int lastchar in
      let* name := of_option KeyError (dget (u "fieldname") field) in
      let* lentext := of_option KeyError (dget (u "length") field) in
      let* len := py_int lentext in
      if l - l =? len then Err IndexError
      else
        let* (rs, ns) := spec_loop l (S i) r in
        Ok (RGrp i (RRep (Z.to_nat (l - pos)) any_char) :: rs, name :: ns)
  end.
(** sftxt_read_fieldspec, sftxt.py:60-90 *)
Definition sftxt_read_fieldspec (spec : str) : result (regex * list str) :=
  let* (rs, ns) := spec_loop 0 1 (csv_dicts spec) in Ok (RSeqs rs, ns).

(** sftxt.py:109-116 and 127-134: one line.  [row] is the OrderedDict built. *)
Definition row : Type := dict str.
(** sftxt.py:109-116 and 127-134: one line *)
Definition read_row (regex_fields : regex * list str) (line : str) : result row :=
  match re_match (fst regex_fields) line with
  | Some (g, _) => Ok (fold_left (fun d inm => dset (snd inm) (group (fst inm) g) d)
                         (combine (seq 1 (length (snd regex_fields))) (snd regex_fields)) [])
  | None => Err ValueError
  end.

(** read_sftxt_blob, sftxt.py:118-134, consumed by list() (line 289). *)
Definition read_sftxt_blob (spec blob : str) : result (list row) :=
  let* rf := sftxt_read_fieldspec spec in mapM (read_row rf) (splitlines blob).

(** read_sftxt_file with datastr, sftxt.py:93-116: a generator, so each line is read only when it is
    needed; modelled as the stream of results. *)
Definition read_sftxt_str (spec datastr : str) : list (result row) :=
  match sftxt_read_fieldspec spec with
  | Err e => [Err e]
  | Ok rf => match datastr with
             | [] => [Err ValueError]
             | _ => map (read_row rf) (splitlines datastr)
             end
  end.

(** ** Candidates *)

(** lookupline[key] (sftxt.py:143-149 and 183-206) *)
Definition field (k : str) (r : row) : result str := of_option KeyError (dget k r).

(** _sftxt_lookuplines2candpool, sftxt.py:137-150, one line. *)
Definition candpool_step (st : dict (option str) * option str) (line : row) : result (dict (option str) * option str) :=
  let '(pool, contestid) := st in
  let* rt := field (u "Record_Type") line in
  let* pool' := if str_eqb (strip rt) (u "Candidate")
                then let* i := field (u "Id") line in let* d := field (u "Description") line in Ok (dset i (Some (strip d)) pool)
                else Ok pool in
  if str_eqb (strip rt) (u "Contest")
  then match contestid with
       | Some (_ :: _) => Ok (pool', contestid)
       | _ => let* i := field (u "Id") line in Ok (pool', Some i)
       end
  else Ok (pool', contestid).
(** The id of sftxt.py:140 *)
Definition zero_id : str := u "0000000".
(** sftxt.py:137-150: the loop over the lines *)
Definition lookuplines2candpool (lines : list row) (contestid : option str) : result (dict (option str) * option str) :=
  foldM candpool_step lines ([(zero_id, None)], contestid).

(** ** Ballots *)
(* One vote of a ballot, sftxt.py:202-213. *)
Record sf_vote := SfVote { sv_rank : Z; sv_cand : option str; sv_exception : option str }.
(** The dict of a ballot, sftxt.py:172-176 and 196-199 *)
Record sf_ballot := SfBallot {
  sb_contest : option str; sb_voter : option str; sb_serial : option str; sb_tally : option str; sb_precinct : option str;
  sb_votes : option (list sf_vote)          (* the key is missing on the empty ballot *)
}.
(** sftxt.py:172-176 *)
Definition emptyballot : sf_ballot := SfBallot None None None None None None.
(** sftxt.py:199 and 213: the ballot with other votes *)
Definition with_votes (b : sf_ballot) (vs : list sf_vote) : sf_ballot :=
  SfBallot (sb_contest b) (sb_voter b) (sb_serial b) (sb_tally b) (sb_precinct b) (Some vs).

(** sftxt.py:203-213: the vote of one line. *)
Definition image_vote (pool : dict (option str)) (line : row) : result sf_vote :=
  let* rk := field (u "Vote_Rank") line in
  let* rank := py_int rk in
  let* cid := field (u "Candidate_Id") line in
  let* cand := of_option KeyError (dget cid pool) in
  let* ov := field (u "Over_Vote") line in
  let* un := field (u "Under_Vote") line in
  let overvote := str_eqb ov (u "1") in
  let undervote := str_eqb un (u "1") in
  if overvote && undervote then Err ValueError
  else Ok (SfVote rank cand (if overvote then Some (u "overvote") else if undervote then Some (u "undervote") else None)).

(** sftxt.py:182-214: one line; the state is what was yielded, and thisballot. *)
Definition ballots_step (pool : dict (option str)) (contestid : option str) (st : list sf_ballot * sf_ballot) (line : row)
  : result (list sf_ballot * sf_ballot) :=
  let '(done, this) := st in
  let* cid := field (u "Contest_Id") line in
  if negb (match contestid with Some c => str_eqb cid c | None => false end) then Ok (done, this)
  else
    let* vid := field (u "Pref_Voter_Id") line in
    let* (done', this') :=
      if match sb_voter this with Some w => str_eqb w vid | None => false end then Ok (done, this)
      else
        let* ser := field (u "Serial_Number") line in
        let* tal := field (u "Tally_Type_Id") line in
        let* pre := field (u "Precinct_Id") line in
        Ok (match sb_voter this with Some _ => done ++ [this] | None => done end,
            SfBallot (Some cid) (Some vid) (Some ser) (Some tal) (Some pre) (Some [])) in
    let* v := image_vote pool line in
    let* vs := of_option KeyError (sb_votes this') in
    Ok (done', with_votes this' (vs ++ [v])).

(** _sftxt_convert_to_ballots, sftxt.py:153-216, over the stream of lines. *)
Definition convert_to_ballots (pool : dict (option str)) (contestid : option str) (lines : list (result row)) : result (list sf_ballot) :=
  let* (done, this) := foldM (fun st r => let* line := r in ballots_step pool contestid st line) lines ([], emptyballot) in
  Ok (done ++ [this]).

(** ** Conversion *)

(** re.sub('[^A-Za-z0-9]+', '_', s), sftxt.py:273: each maximal run becomes one underscore. *)
Fixpoint underscores (in_run : bool) (s : str) : str :=
  match s with
  | [] => []
  | c :: r => if alnum c then c :: underscores false r
              else if in_run then underscores true r else 95%N :: underscores true r
  end.
(** re.sub('WRITE_IN_', 'wi_', s), sftxt.py:274.  [skip] counts the characters of the match still to drop. *)
Fixpoint is_prefix (p s : str) : bool :=
  match p, s with
  | [], _ => true
  | x :: p', y :: s' => N.eqb x y && is_prefix p' s'
  | _ :: _, [] => false
  end.
(** The pattern of sftxt.py:274 *)
Definition k_write_in : str := u "WRITE_IN_".
(** re.sub of sftxt.py:274 *)
Fixpoint sub_write_in (skip : nat) (s : str) : str :=
  match s with
  | [] => []
  | c :: r =>
      match skip with
      | S k => sub_write_in k r
      | O => if is_prefix k_write_in s then u "wi_" ++ sub_write_in (length k_write_in - 1) r else c :: sub_write_in 0 r
      end
  end.
(** _short_token, sftxt.py:268-276 *)
Definition sf_short_token (s : str) : str :=
  if (length s <=? 20)%nat && match re_match ALNUM_REGEX s with Some _ => true | None => false end then s
  else firstn 20 (sub_write_in 0 (underscores false s)).

(** bool(s) for a name or None, sftxt.py:301 and 320 *)
Definition truthy (s : option str) : option str := match s with Some (c :: r) => Some (c :: r) | _ => None end.

(** sftxt.py:298-307: the candidate table; the value of "cand0" is None. *)
Fixpoint cand_table (n : N) (pool : dict (option str)) (t : dict (option str)) : dict (option str) :=
  match pool with
  | [] => t
  | (_, name) :: r =>
      let tok := match truthy name with Some s => sf_short_token s | None => u "cand" ++ n2s n end in
      cand_table (n + 1) r (dset tok name t)
  end.

(** sftxt.py:312-316 *)
Definition show_field (o : option str) : str := match o with Some s => s | None => u "None" end.
(** sftxt.py:312-316 *)
Definition sf_comment (b : sf_ballot) : str :=
  u "Contest: " ++ show_field (sb_contest b) ++ u "; Voter: " ++ show_field (sb_voter b) ++ u "; SerialNum: " ++ show_field (sb_serial b) ++
  u "; TalType: " ++ show_field (sb_tally b) ++ u "; Precinct: " ++ show_field (sb_precinct b) ++ u ";".

(** sftxt.py:320-326 *)
Definition k_none : str := u "(none)".
(** sftxt.py:320-326 *)
Definition prefs_step (verbose : bool) (prefs : dict pref) (p : sf_vote) : dict pref :=
  let tok := match truthy (sv_cand p) with Some s => sf_short_token s | None => k_none end in
  if negb (str_eqb tok k_none) || verbose then dset tok (ranked (sv_rank p)) prefs else prefs.
(** sftxt.py:309-329: one ballot *)
Definition ballot_voteline (verbose : bool) (b : sf_ballot) : result voteline :=
  let* votes := of_option KeyError (sb_votes b) in
  Ok (Voteline 1 (fold_left (prefs_step verbose) votes []) (if verbose then Some (sf_comment b) else None) None None None).

(** A jabmod whose candidate table may hold None. (sftxt.py:287-334) *)
Record sf_jabmod := SfJabmod { sf_metadata : dict json; sf_candidates : dict (option str); sf_votelines : list voteline }.

(** convert_sftxt_to_jabmod, sftxt.py:279-334.  Simplification: consolidation looks only at the votelines. *)
Definition convert_sftxt_to_jabmod (master ballots : str) (verbose : bool) : result sf_jabmod :=
  let* lookuplines := read_sftxt_blob MASTERLOOKUP_FIELDSPEC master in
  let* (pool, contestid) := lookuplines2candpool lookuplines None in
  let* recs := convert_to_ballots pool contestid (read_sftxt_str BALLOTIMAGE_FIELDSPEC ballots) in
  let* vls := mapM (ballot_voteline verbose) recs in
  let metadata := dset k_ballotcount (JInt (Z.of_nat (length vls)))
                    (dset (u "contestid") (match contestid with Some c => JStr c | None => JNull end) (j_metadata emptyish)) in
  let vls' := if verbose then vls else j_votelines (consolidate (Jabmod metadata [] vls)) in
  Ok (SfJabmod metadata (cand_table 0 pool []) vls').
