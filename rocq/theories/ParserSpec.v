(** * ParserSpec: the vocabulary of the statements about the ABIF reader.

    What a line, a comment, a voteline and a preference text are, said without reference to the
    reader's patterns. *)

From Verif Require Import PyBase Jabmod WordTable.
Local Open Scope Z_scope.

(** The part of a line before the first '#', and the comment from there on. *)
Fixpoint before_hash (s : str) : str :=
  match s with
  | [] => []
  | c :: r => if N.eqb c 35 then [] else c :: before_hash r
  end.
Fixpoint comment_of (s : str) : option str :=
  match s with
  | [] => None
  | c :: r => if N.eqb c 35 then Some s else comment_of r
  end.

(** Longest prefix of characters satisfying [p], and the rest. *)
Fixpoint take_while (p : N -> bool) (s : str) : str :=
  match s with c :: r => if p c then c :: take_while p r else [] | [] => [] end.
Fixpoint drop_while (p : N -> bool) (s : str) : str :=
  match s with c :: r => if p c then drop_while p r else s | [] => [] end.

(** "digits:preferences", at least one digit: the digits and the preferences. *)
Definition vote_parts (s : str) : option (str * str) :=
  match take_while is_digit s, drop_while is_digit s with
  | (_ :: _) as ds, c :: rest => if N.eqb c 58 then Some (ds, rest) else None     (* 58 is the colon *)
  | _, _ => None
  end.

(** The line (of the file) is a voteline. *)
Definition is_voteline (line : str) : bool :=
  match vote_parts (before_hash line) with Some _ => true | None => false end.

(** The voter id of a comment: what follows "##VID:" up to the first white space, if anything does. *)
Fixpoint strip_prefix (p s : str) : option str :=
  match p, s with
  | [], _ => Some s
  | x :: p', y :: s' => if N.eqb x y then strip_prefix p' s' else None
  | _ :: _, [] => None
  end.
Definition voter_id (comment : option str) : option str :=
  match comment with
  | Some c => match strip_prefix (u "##VID:") c with
              | Some r => match take_while (fun x => negb (is_space x)) r with
                          | [] => None
                          | id => Some id
                          end
              | None => None
              end
  | None => None
  end.

(** A text made of the given lines, each ended by a newline. *)
Definition unlines (ls : list str) : str := flat_map (fun l => l ++ [10%N]) ls.

(** A line: no line-boundary character. *)
Definition one_line (s : str) : Prop := forall c, In c s -> is_linebreak c = false.

(** ** Preference texts *)

(** How a candidate can be written: bare, or in square brackets, or in double quotes (which needs a
    rating, see C37); the rating is a decimal numeral after a slash. *)
Inductive written :=
| Bare (name : str) (rating : option str)
| Bracketed (name : str) (rating : option str)
| Quoted (name : str) (rating : str).

Definition name_of (w : written) : str :=
  match w with Bare n _ | Bracketed n _ | Quoted n _ => n end.

Definition slash (ds : option str) : str := match ds with Some d => 47%N :: d | None => [] end.
Definition show (w : written) : str :=
  match w with
  | Bare n r => n ++ slash r
  | Bracketed n r => [91%N] ++ n ++ [93%N] ++ slash r
  | Quoted n r => [34%N] ++ n ++ [34%N] ++ slash (Some r)
  end.

(** Characters with no special meaning in a preference text: no line boundary, # [ ] > = comma. *)
Definition plain_char (c : N) : bool :=
  negb (is_linebreak c) && negb (existsb (N.eqb c) [35; 91; 93; 62; 61; 44]%N).
Definition numeral (s : str) : Prop := s <> [] /\ forallb is_digit s = true.

(** A non-empty name of plain characters, no white space at its ends. *)
Definition plain_name (n : str) : Prop :=
  n <> [] /\ forallb plain_char n = true /\ strip n = n.
Definition has (c : N) (s : str) : bool := existsb (N.eqb c) s.

Definition well_written (w : written) : Prop :=
  match w with
  | Bare n r => plain_name n /\ has 34 n = false /\ has 47 n = false /\ (forall d, r = Some d -> numeral d)
  | Bracketed n r => plain_name n /\ has 34 n = false /\ (forall d, r = Some d -> numeral d)
  | Quoted n r => forallb plain_char n = true /\ has 34 n = false /\ numeral r
  end.

(** The rating stored for a written candidate: bare and bracketed ones store a number, and drop a
    zero; quoted ones keep the numeral as text. *)
Definition stored_rating (w : written) : option ratingval :=
  match w with
  | Bare _ (Some d) | Bracketed _ (Some d) =>
      match py_int d with Ok z => if z =? 0 then None else Some (RInt z) | Err _ => None end
  | Quoted _ d => Some (RStr d)
  | _ => None
  end.

(** White space padding (no line boundary). *)
Definition blank (s : str) : Prop := forallb is_space s = true /\ one_line s.

(** A candidate as written on the line: padding, the candidate, padding. *)
Definition item : Type := (str * written * str)%type.
Definition item_written (i : item) : written := snd (fst i).
Definition item_name (i : item) : str := name_of (item_written i).
Definition show_item (i : item) : str := let '(a, w, b) := i in a ++ show w ++ b.
Definition item_ok (i : item) : Prop := let '(a, w, b) := i in blank a /\ well_written w /\ blank b.

(** A preference text: a first candidate, then each next one after its delimiter. *)
Fixpoint show_prefs (i : item) (r : list (N * item)) : str :=
  match r with
  | [] => show_item i
  | (d, j) :: r' => show_item i ++ d :: show_prefs j r'
  end.
Definition delimiter (d : N) : Prop := d = 62%N \/ d = 61%N \/ d = 44%N.   (* > = , *)

(** Ranks in a ranking: one more after each '>'. *)
Fixpoint ranks_from (k : Z) (i : item) (r : list (N * item)) : list (str * Z) :=
  match r with
  | [] => [(item_name i, k)]
  | (d, j) :: r' => (item_name i, k) :: ranks_from (if N.eqb d 62 then k + 1 else k) j r'
  end.

(** The number a candidate's rating stands for; 0 if there is none. *)
Definition rating_text (w : written) : option str :=
  match w with Bare _ r | Bracketed _ r => r | Quoted _ d => Some d end.
Definition rating_number (w : written) : Z :=
  match rating_text w with
  | Some d => match py_int d with Ok z => z | Err _ => 0 end
  | None => 0
  end.

(** ** Metadata and candidate lines *)

(** {key: value}, where the key and the value may be put in double quotes. *)
Definition meta_line (quoted : bool) (key pad value : str) : str :=
  let q := if quoted then [34%N] else [] in
  [123%N] ++ q ++ key ++ q ++ [58%N] ++ pad ++ q ++ value ++ q ++ [125%N].

Definition starts (p : N -> bool) (s : str) : bool := match s with c :: _ => p c | [] => false end.

(** Keys are made of word characters and white space, values also of , . ( ) - ? : ' and slash; unquoted
    ones do not start with white space, and an unquoted value does not start with an apostrophe. *)
Definition key_char (c : N) : bool := is_word c || is_space c.
Definition value_char (c : N) : bool := is_word c || is_space c || existsb (N.eqb c) (u ",.()-?:'/").
Definition key_ok (quoted : bool) (key : str) : Prop :=
  key <> [] /\ forallb key_char key = true /\ (quoted = false -> starts is_space key = false).
Definition value_ok (quoted : bool) (value : str) : Prop :=
  value <> [] /\ forallb value_char value = true /\
  (quoted = false -> starts is_space value = false /\ starts (N.eqb 39) value = false).

(** =token:[name] and =token:name *)
Definition cand_line (bracketed : bool) (token name : str) : str :=
  if bracketed then [61%N] ++ token ++ [58%N; 91%N] ++ name ++ [93%N]
  else [61%N] ++ token ++ [58%N] ++ name.

(** A token for a candidate line: no colon, double quote or closing bracket, and not starting with white
    space or an opening bracket.  A name: no closing bracket; unless bracketed, it does not start with
    an opening bracket. *)
Definition token_ok (tok : str) : Prop :=
  forallb (fun c => negb (existsb (N.eqb c) [58; 34; 93]%N)) tok = true /\ starts is_space tok = false /\ starts (N.eqb 91) tok = false.
Definition name_ok (bracketed : bool) (name : str) : Prop :=
  forallb (fun c => negb (existsb (N.eqb c) [93]%N)) name = true /\ (bracketed = false -> starts (N.eqb 91) name = false).
