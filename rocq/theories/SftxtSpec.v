(** * SftxtSpec: the vocabulary of the statements about San Francisco ballot images. *)

From Verif Require Import PyBase Jabmod Spec JsonText WriterModel ParserSpec SftxtModel.
Local Open Scope Z_scope.

(** ** Fixed-width fields *)
(** A field: its name, the position of its last character, the length declared for it. *)
Record fieldspec := FieldSpec { fs_name : str; fs_last : N; fs_len : N }.
Definition fs_line (f : fieldspec) : str := fs_name f ++ [44%N] ++ n2s (fs_last f) ++ [44%N] ++ n2s (fs_len f).
Definition fs_text (fs : list fieldspec) : str := unlines (u "fieldname,lastchar,length" :: map fs_line fs).

(** Characters number a+1 to b of the line. *)
Definition chars (a b : N) (line : str) : str := firstn (N.to_nat b - N.to_nat a) (skipn (N.to_nat a) line).
(** Each field with its characters. *)
Fixpoint fields_from (a : N) (fs : list fieldspec) (line : str) : dict str :=
  match fs with
  | [] => []
  | f :: r => (fs_name f, chars a (fs_last f) line) :: fields_from (fs_last f) r line
  end.
(** The positions do not decrease. *)
Fixpoint positions_ok (a : N) (fs : list fieldspec) : Prop :=
  match fs with [] => True | f :: r => (a <= fs_last f)%N /\ positions_ok (fs_last f) r end.
Fixpoint last_position (a : N) (fs : list fieldspec) : N :=
  match fs with [] => a | f :: r => last_position (fs_last f) r end.

(** ** Ballot images *)
(** The fields of an image line. *)
Record image := Image {
  im_contest : str; im_voter : str; im_serial : str; im_tally : str; im_precinct : str;
  im_rank : str; im_cand : str; im_over : str; im_under : str
}.
Definition image_dict (x : image) : dict str :=
  [ (u "Contest_Id", im_contest x); (u "Pref_Voter_Id", im_voter x); (u "Serial_Number", im_serial x); (u "Tally_Type_Id", im_tally x);
    (u "Precinct_Id", im_precinct x); (u "Vote_Rank", im_rank x); (u "Candidate_Id", im_cand x); (u "Over_Vote", im_over x); (u "Under_Vote", im_under x) ].
(** Where they stand on the line. *)
Definition image_of (line : str) : image :=
  Image (chars 0 7 line) (chars 7 16 line) (chars 16 23 line) (chars 23 26 line) (chars 26 33 line)
        (chars 33 36 line) (chars 36 43 line) (chars 43 44 line) (chars 44 45 line).

(** A division of the lines into consecutive, non-empty groups, one voter id in each, and different ids
    in neighbouring groups. *)
Definition one_voter (g : list image) : Prop := g <> [] /\ forall x y, In x g -> In y g -> im_voter x = im_voter y.
Fixpoint neighbours_differ (gs : list (list image)) : Prop :=
  match gs with
  | g :: ((h :: _) as r) => (forall x y, In x g -> In y h -> im_voter x <> im_voter y) /\ neighbours_differ r
  | _ => True
  end.
Definition ballots_of (lines : list image) (gs : list (list image)) : Prop :=
  concat gs = lines /\ (forall g, In g gs -> one_voter g) /\ neighbours_differ gs.

(** The ballots made of such groups.  [pool] gives the name behind a candidate id (None: nobody). *)
(** The vote an image line stands for: its rank, its candidate, and the flag that is set, not both. *)
Definition line_vote (pool : dict (option str)) (x : image) (v : sf_vote) : Prop :=
  py_int (im_rank x) = Ok (sv_rank v) /\ dget (im_cand x) pool = Some (sv_cand v) /\ ~ (im_over x = u "1" /\ im_under x = u "1") /\
  sv_exception v = (if str_eqb (im_over x) (u "1") then Some (u "overvote") else if str_eqb (im_under x) (u "1") then Some (u "undervote") else None).
(** The ballot of a group: the fields of its first line, and the votes of its lines, in order. *)
Definition ballot_is (pool : dict (option str)) (g : list image) (b : sf_ballot) : Prop :=
  exists x r vs, g = x :: r /\ b = SfBallot (Some (im_contest x)) (Some (im_voter x)) (Some (im_serial x)) (Some (im_tally x)) (Some (im_precinct x)) (Some vs) /\
    Forall2 (line_vote pool) g vs.
(** What is wrong with a line: the rank is no number, the candidate is unknown, or both flags are set. *)
Definition line_error (pool : dict (option str)) (x : image) (e : exn) : Prop :=
  match py_int (im_rank x) with
  | Err _ => e = ValueError
  | Ok _ => match dget (im_cand x) pool with
            | None => e = KeyError
            | Some _ => e = ValueError /\ im_over x = u "1" /\ im_under x = u "1"
            end
  end.
(** The lines of one contest; a line is fine if it belongs to another contest or stands for a vote. *)
Definition mine (contest : str) (lines : list image) : list image := filter (fun x => str_eqb (im_contest x) contest) lines.
Definition good (pool : dict (option str)) (contest : str) (x : image) : Prop := im_contest x = contest -> exists v, line_vote pool x v.
(** The lines as the reader hands them over. *)
Definition stream (lines : list image) : list (result row) := map (fun x => Ok (image_dict x)) lines.

(** ** Whole files *)
(** A record of the master lookup file. *)
Record lookup := Lookup { lk_type : str; lk_id : str; lk_desc : str }.
Definition lookup_of (line : str) : lookup := Lookup (strip (chars 0 10 line)) (chars 10 17 line) (strip (chars 17 67 line)).
(** The contest: the id of the first Contest record. *)
Definition first_contest (ls : list lookup) (c : str) : Prop :=
  exists before x after, ls = before ++ x :: after /\ lk_type x = u "Contest" /\ lk_id x = c /\ forall y, In y before -> lk_type y <> u "Contest".
(** The candidate of an id: the last Candidate record with this id; "0000000" stands for nobody unless
    there is such a record. *)
Fixpoint named (ls : list lookup) (i : str) : option (option str) :=
  match ls with
  | [] => if str_eqb i (u "0000000") then Some None else None
  | x :: r => match named r i with
              | Some (Some n) => Some (Some n)
              | other => if str_eqb (lk_type x) (u "Candidate") && str_eqb (lk_id x) i then Some (Some (lk_desc x)) else other
              end
  end.
(** The token of the candidate on an image line: of the name behind the id; none for nobody, or "(none)" if asked for. *)
Definition token_on (name_of : str -> option (option str)) (verbose : bool) (x : image) : option str :=
  match name_of (im_cand x) with
  | Some (Some (c :: r)) => Some (sf_short_token (c :: r))
  | _ => if verbose then Some (u "(none)") else None
  end.
(** A voteline of quantity 1 that gives each candidate the rank on the last line of the group with
    that candidate, and says nothing else. *)
Definition line_of_group (name_of : str -> option (option str)) (verbose : bool) (g : list image) (v : voteline) : Prop :=
  v_qty v = 1 /\ NoDup (map fst (v_prefs v)) /\
  forall tok p, dget tok (v_prefs v) = Some p <->
    exists before x after r, g = before ++ x :: after /\ token_on name_of verbose x = Some tok /\ py_int (im_rank x) = Ok r /\ p = ranked r /\
      forall y, In y after -> token_on name_of verbose y <> Some tok.
