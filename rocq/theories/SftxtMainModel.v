(** * SftxtMainModel: the script part of abiflib/sftxt.py (lines 218-265 and 337-411): python3 sftxt.py lookupfile imagefile *)

From Verif Require Import PyBase Jabmod UrlText JsonText JsonParse WriterModel DebtallyModel SftxtModel JabmodJson ConvertModel ObjModel.
Local Open Scope Z_scope.
Local Open Scope res_scope.

(** ** Reading *)
(** The files the script can see, by name, as text (newlines already translated).  Simplifications: different names are
    different files, every output file can be opened, and the name '-' (standard input for fileinput) is not used. (sftxt.py:360-384) *)
Definition files : Type := str -> option str.
(** Not in /repo: the files after one was written. *)
Definition with_file (name text : str) (fs : files) : files := fun n => if str_eqb n name then Some text else fs n.
(** The lines of a text file as iteration over the file gives them, without their newline (the patterns of this module
    cannot match a newline). (sftxt.py:102) *)
Fixpoint file_lines (t : str) : list str :=
  match t with
  | [] => []
  | c :: r => if N.eqb c 10 then [] :: file_lines r
              else match file_lines r with l :: ls => (c :: l) :: ls | [] => [[c]] end
  end.
(** read_sftxt_file with datafile, sftxt.py:93-116: a generator *)
Definition read_sftxt_file (spec : str) (fs : files) (datafile : str) : list (result row) :=
  match sftxt_read_fieldspec spec with
  | Err e => [Err e]
  | Ok rf => match datafile with
             | [] => [Err ValueError]
             | _ => match fs datafile with
                    | None => [Err FileNotFoundError]
                    | Some t => map (read_row rf) (file_lines t)
                    end
             end
  end.
(** list() of a generator (sftxt.py:360 and 391) *)
Definition exhaust {A} (l : list (result A)) : result (list A) := mapM (fun r => r) l.

(** _sftxt_convert_to_ballots as a generator, sftxt.py:153-216: the ballots it yields, and the exception that ends it.  The
    ballot of the voter before is yielded (line 193) before the vote on the new line is looked at. *)
Definition yielded (contestid : option str) (this : sf_ballot) (line : row) : list sf_ballot :=
  match field (u "Contest_Id") line, field (u "Pref_Voter_Id") line with
  | Ok cid, Ok vid =>
      if match contestid with Some c => str_eqb cid c | None => false end
      then match sb_voter this with Some w => if str_eqb w vid then [] else [this] | None => [] end
      else []
  | _, _ => []
  end.
(** The generator of ballots, sftxt.py:153-215, up to the line that raises *)
Fixpoint gen_ballots (pool : dict (option str)) (contestid : option str) (this : sf_ballot) (lines : list (result row)) : list sf_ballot * option exn :=
  match lines with
  | [] => ([this], None)
  | Err e :: _ => ([], Some e)
  | Ok line :: r =>
      match ballots_step pool contestid ([], this) line with
      | Err e => (yielded contestid this line, Some e)
      | Ok (_, this') => let (l, e) := gen_ballots pool contestid this' r in (yielded contestid this line ++ l, e)
      end
  end.

(** outputrecords: ballots, or the rows of the image file (sftxt.py:367-372) *)
Inductive record := RBallot (b : sf_ballot) | RRow (r : row).
(** rec['votes'], sftxt.py:223-260 *)
Definition rec_votes (x : record) : result (list sf_vote) :=
  match x with RBallot b => of_option KeyError (sb_votes b) | RRow _ => Err KeyError end.
(** votes[i], sftxt.py:223-260 *)
Definition vote_at (i : nat) (vs : list sf_vote) : result sf_vote := of_option IndexError (nth_error vs i).
(** The rows as records, sftxt.py:369 *)
Fixpoint gen_rows (lines : list (result row)) : list record * option exn :=
  match lines with
  | [] => ([], None)
  | Err e :: _ => ([], Some e)
  | Ok line :: r => let (l, e) := gen_rows r in (RRow line :: l, e)
  end.
(** sftxt.py:367-372: the rows with --imagelines, otherwise the ballots *)
Definition gen_records (imagelines : bool) (pool : dict (option str)) (contestid : option str) (lines : list (result row)) : list record * option exn :=
  if imagelines then gen_rows lines
  else let (l, e) := gen_ballots pool contestid emptyballot lines in (map RBallot l, e).

(** ** Writing *)
(** Dicts with a name or None as key. (sftxt.py:220-241) *)
Definition name_eqb (a b : option str) : bool := match a, b with Some x, Some y => str_eqb x y | None, None => true | _, _ => false end.
(** d.get(k) with a name or None as key (sftxt.py:220-263) *)
Fixpoint oget {V} (k : option str) (d : list (option str * V)) : option V :=
  match d with [] => None | (k', v) :: r => if name_eqb k k' then Some v else oget k r end.
(** d[k] = v with a name or None as key (sftxt.py:220-263) *)
Fixpoint oset {V} (k : option str) (v : V) (d : list (option str * V)) : list (option str * V) :=
  match d with [] => [(k, v)] | (k', w) :: r => if name_eqb k k' then (k', v) :: r else (k', w) :: oset k v r end.
(** str(name) (sftxt.py:228) *)
Definition str_of (n : option str) : str := match n with Some s => s | None => u "None" end.

(** urllib.parse.urlencode(outrec) (sftxt.py:228) *)
Definition urlencode (d : list (option str * Z)) : result str :=
  let* parts := mapM (fun kv => let* k := quote_plus (str_of (fst kv)) in let* v := quote_plus (z2s (snd kv)) in Ok (k ++ [61%N] ++ v)) d in
  Ok (join [38%N] parts).
(** sftxt.py:222-227 *)
Definition keep_first (v : sf_vote) (outrec : list (option str * Z)) : list (option str * Z) :=
  match oget (sv_cand v) outrec with Some _ => outrec | None => oset (sv_cand v) (sv_rank v) outrec end.
(** _sftxt_dump_url_encoded, sftxt.py:218-228: the line of one record *)
Definition url_line (x : record) : result str :=
  let* votes := rec_votes x in
  let* v0 := vote_at 0 votes in
  let* v1 := vote_at 1 votes in
  let* v2 := vote_at 2 votes in
  urlencode (keep_first v2 (keep_first v1 [(sv_cand v0, sv_rank v0)])).

(** sftxt.py:235-241: the header and revcand *)
Fixpoint csv_header (n : N) (pool : dict (option str)) : str :=
  match pool with
  | [] => []
  | (_, name) :: r => match truthy name with Some s => n2s n ++ u ", " ++ s ++ [10%N] | None => [] end ++ csv_header (n + 1) r
  end.
(** sftxt.py:236-241: the numbers of the candidates by name *)
Fixpoint rev_cands (n : N) (pool : dict (option str)) (t : list (option str * N)) : list (option str * N) :=
  match pool with [] => t | (_, name) :: r => rev_cands (n + 1) r (oset name n t) end.
(** sftxt.py:251-263: one of the later votes *)
Definition csv_vote (revcand : list (option str * N)) (v : sf_vote) (st : list (option str * Z) * str) : result (list (option str * Z) * str) :=
  let '(outrec, outstr) := st in
  match truthy (sv_cand v), oget (sv_cand v) outrec with
  | Some _, None => let* n := of_option KeyError (oget (sv_cand v) revcand) in Ok (oset (sv_cand v) (sv_rank v) outrec, outstr ++ u ">" ++ n2s n)
  | _, _ => Ok (outrec, outstr)
  end.
(** _sftxt_dump_csv1996fmt, sftxt.py:242-265: the line of one record *)
Definition csv96_line (revcand : list (option str * N)) (x : record) : result str :=
  let* votes := rec_votes x in
  let* v0 := vote_at 0 votes in
  let* n0 := of_option KeyError (oget (sv_cand v0) revcand) in
  let* v1 := vote_at 1 votes in
  let* st := csv_vote revcand v1 ([(sv_cand v0, sv_rank v0)], n2s n0) in
  let* v2 := vote_at 2 votes in
  let* st := csv_vote revcand v2 st in
  Ok (snd st).

(** for rec in outputrecords: ... print(line): what is printed, and the exception that ends it, the one of a record or
    the one that ends the generator (sftxt.py:219-228 and 242-265) *)
Fixpoint dump (line : record -> result str) (recs : list record) (last : option exn) : str * option exn :=
  match recs with
  | [] => ([], last)
  | x :: r => match line x with
              | Err e => ([], Some e)
              | Ok s => let (t, e) := dump line r last in (s ++ [10%N] ++ t, e)
              end
  end.

(** json.dump of the records.  The keys of a ballot are in the order of sftxt.py:164-170, 198; those of a vote in the order
    of 203-212. *)
Definition opt_json (o : option str) : json := match o with Some s => JStr s | None => JNull end.
(** A vote for json.dump, sftxt.py:202-212 *)
Definition vote_json (v : sf_vote) : json :=
  JObj ([(u "rank", JInt (sv_rank v)); (u "candidate", opt_json (sv_cand v))] ++ match sv_exception v with Some e => [(u "exception", JStr e)] | None => [] end).
(** A ballot for json.dump, sftxt.py:172-176 and 196-199 *)
Definition ballot_json (b : sf_ballot) : json :=
  JObj ([(u "Contest_Id", opt_json (sb_contest b)); (u "Pref_Voter_Id", opt_json (sb_voter b)); (u "Serial_Number", opt_json (sb_serial b));
         (u "Tally_Type_Id", opt_json (sb_tally b)); (u "Precinct_Id", opt_json (sb_precinct b))]
        ++ match sb_votes b with Some vs => [(u "votes", JArr (map vote_json vs))] | None => [] end).
(** A record for json.dump, sftxt.py:386-391 *)
Definition record_json (x : record) : json :=
  match x with RBallot b => ballot_json b | RRow r => JObj (map (fun kv => (fst kv, JStr (snd kv))) r) end.

(** consolidate_jabmod_voteline_objects on a jabmod that may hold None as a name (sftxt.py:332, 396, 403) *)
Definition sf_consolidate (m : sf_jabmod) : sf_jabmod :=
  SfJabmod (sf_metadata m) (sf_candidates m) (j_votelines (consolidate (Jabmod (sf_metadata m) [] (sf_votelines m)))).
(** ** main, sftxt.py:337-411, after argument parsing *)
Record sf_args := SfArgs {
  sa_imagelines : bool; sa_lookupfile : str; sa_imagefile : str; sa_outfile : option str; sa_contestid : option str; sa_outputformat : str; sa_consolidate : bool
}.
(** What can be observed of a run of the script: the files afterwards, what it printed, and the exception that ended it. (sftxt.py:337-411) *)
Record sf_outcome := SfOutcome { so_files : files; so_stdout : str; so_exn : option exn }.

(** sftxt.py:390-411: what goes to the output file handle, what is printed, and the exception *)
Definition sf_body (a : sf_args) (pool : dict (option str)) (records : list record * option exn) (masterblob ballotblob : str) : str * str * option exn :=
  let fmt := sa_outputformat a in
  if str_eqb fmt (u "json") then
    match snd records with
    | Some e => ([], [], Some e)
    | None => (dumps_indent 4 (JArr (map record_json (fst records))), [], None)
    end
  else if str_eqb fmt (u "abif") then
    match (let* m := convert_sftxt_to_jabmod masterblob ballotblob false in
           convert_jabmod_to_abif (jabmod_of_sf (if sa_consolidate a then sf_consolidate m else m))) with
    | Ok s => ([], s ++ [10%N], None)
    | Err e => ([], [], Some e)
    end
  else if str_eqb fmt (u "jabmod") then
    match (let* j := convert_sftxt_obj masterblob ballotblob in if sa_consolidate a then consolidate_obj j else Ok j) with
    | Ok j => ([], dumps_indent 4 j ++ [10%N], None)
    | Err e => ([], [], Some e)
    end
  else if str_eqb fmt (u "urlencoded") then
    let (t, e) := dump url_line (fst records) (snd records) in (t, [], e)
  else if str_eqb fmt (u "csv96") then
    let (t, e) := dump (csv96_line (rev_cands 0 pool [])) (fst records) (snd records) in (csv_header 0 pool ++ t, [], e)
  else ([], [], Some ValueError).

(** main, sftxt.py:337-411 *)
Definition sftxt_main (fs : files) (a : sf_args) : sf_outcome :=
  match (let* lookuplines := exhaust (read_sftxt_file MASTERLOOKUP_FIELDSPEC fs (sa_lookupfile a)) in
         lookuplines2candpool lookuplines (sa_contestid a)) with
  | Err e => SfOutcome fs [] (Some e)
  | Ok (pool, contestid) =>
      let out := truthy (sa_outfile a) in
      let fs1 := match out with Some o => with_file o [] fs | None => fs end in
      match fs1 (sa_lookupfile a), fs1 (sa_imagefile a) with
      | Some masterblob, Some ballotblob =>
          let records := gen_records (sa_imagelines a) pool contestid (read_sftxt_file BALLOTIMAGE_FIELDSPEC fs1 (sa_imagefile a)) in
          let '(text, printed, e) := sf_body a pool records masterblob ballotblob in
          match out with
          | Some o => SfOutcome (with_file o text fs1) printed e
          | None => SfOutcome fs1 (text ++ printed) e
          end
      | _, _ => SfOutcome fs1 [] (Some FileNotFoundError)
      end
  end.
