(** * ArgparseModel: the command lines of the other scripts (argparse as they use it) *)

From Verif Require Import PyBase Jabmod IrvModel CliModel ArgvModel.
Local Open Scope Z_scope.

(** argparse itself is the standard library's, as in Python 3.11 (see ArgvModel, whose parser is this one with typed and appending options).  Help and
    usage texts are not modelled. *)
(** add_argument of an option: -h, action='store_true', or a value, perhaps with choices (core.py:689-695, irvtally.py:287, sftxt.py:340-355, copedot.py:31,
    fetchmgr.py:230) *)
Inductive kind := KHelp | KFlag | KValue (choices : option (list str)).
(** add_argument of a positional: nargs not given, '+' or '*' (core.py:696, sftxt.py:343-345, fetchmgr.py:234) *)
Inductive nargs := One | Plus | Star.
(** A parser: its option strings with their dest and kind in the order of the calls, and its positionals; a + or * is the last one.  *)
Record spec := Spec { sp_options : list (str * (str * kind)); sp_positionals : list nargs }.
(** The stored value of an option *)
Inductive value := VTrue | VStr (s : str).
(** parser.error() (status 2), the exit of -h, and the ValueError of _get_values when the only argument is -- and has been removed *)
Inductive stopped := SUsage | SHelp | SCrash.
(** Not in /repo: a value, or a stop. *)
Definition parse_of (A : Type) : Type := A + stopped.
(** Not in /repo: sequencing. *)
Definition andthen {A B} (x : parse_of A) (f : A -> parse_of B) : parse_of B := match x with inl a => f a | inr e => inr e end.

Section Parser.
(** Not in /repo: the parser at hand. *)
Variable sp : spec.
(** Does the option take a value? (nargs=None against nargs=0) *)
Definition takes (k : kind) : bool := match k with KValue _ => true | _ => false end.
(** An option on the command line: what it is (None for an unknown one), the option string, the separator, the explicit argument (argparse's _parse_optional) *)
Record found := Found { fd_option : option (str * kind); fd_string : str; fd_sep : str; fd_explicit : option str }.
(** argparse's _get_option_tuples: abbreviations of long options, and short options with their argument attached *)
Definition option_tuples (s : str) : list found :=
  match s with
  | _ :: c1 :: rest =>
      if N.eqb c1 45 then
        let (prefix, explicit) := partition_eq s in
        flat_map (fun oa => if is_prefix prefix (fst oa) then [Found (Some (snd oa)) (fst oa) (u "=") explicit] else []) (sp_options sp)
      else
        flat_map (fun oa => if str_eqb (fst oa) [45%N; c1] then [Found (Some (snd oa)) (fst oa) [] (Some rest)]
                            else if is_prefix s (fst oa) then [Found (Some (snd oa)) (fst oa) [] None] else []) (sp_options sp)
  | _ => []
  end.
(** argparse's _parse_optional.  inl None: an argument; inl (Some t): an option; inr: the abbreviation is ambiguous *)
Definition as_option (s : str) : parse_of (option found) :=
  match s with
  | c :: r =>
      if negb (N.eqb c 45) then inl None
      else match dget s (sp_options sp) with
      | Some a => inl (Some (Found (Some a) s [] None))
      | None =>
          match r with
          | [] => inl None
          | _ =>
              let (before, after) := partition_eq s in
              match after, dget before (sp_options sp) with
              | Some e, Some a => inl (Some (Found (Some a) before (u "=") (Some e)))
              | _, _ =>
                  match option_tuples s with
                  | _ :: _ :: _ => inr SUsage
                  | [t] => inl (Some t)
                  | [] => if negative_number s then inl None else if existsb (N.eqb 32) s then inl None else inl (Some (Found None s [] None))
                  end
              end
          end
      end
  | [] => inl None
  end.
(** The letters O, A and - of arg_strings_pattern *)
Inductive letter := LO (t : found) (s : str) | LA (s : str) | LDashes.
(** Is it an A? *)
Definition is_word (t : letter) : bool := match t with LA _ => true | _ => false end.
(** The word of the command line *)
Definition word_of (t : letter) : str := match t with LO _ s => s | LA s => s | LDashes => u "--" end.
(** The loop of argparse's _parse_known_args that makes arg_strings_pattern *)
Fixpoint letters_of (argv : list str) : parse_of (list letter) :=
  match argv with
  | [] => inl []
  | s :: r =>
      if str_eqb s (u "--") then inl (LDashes :: map LA r)
      else andthen (as_option s) (fun o => andthen (letters_of r) (fun l => inl (match o with Some t => LO t s | None => LA s end :: l)))
  end.

(** argparse's consume_optional: the flags, and then what the last option in the string does *)
Inductive ends_with := EFlag | EValue (a : str * kind) (value : str) | ENext (a : str * kind) | EUnknown (s : str).
(** A flag before the rest of a bundle of short options *)
Definition bundled (a : str * kind) (x : parse_of (list (str * kind) * ends_with)) : parse_of (list (str * kind) * ends_with) :=
  andthen x (fun fl => inl (a :: fst fl, snd fl)).
(** Without explicit argument a flag acts at once, another option takes the next word. *)
Definition plain_option (a : str * kind) : parse_of (list (str * kind) * ends_with) := inl (if takes (snd a) then ([], ENext a) else ([a], EFlag)).
(** With an explicit argument e; [long]: option_string[1] is a '-'; [sep]: there was a '=' *)
Fixpoint explicit_option (a : str * kind) (long sep : bool) (e : str) : parse_of (list (str * kind) * ends_with) :=
  if takes (snd a) then inl ([], EValue a e)
  else match e with
       | [] => inr SUsage
       | c :: e' =>
           if long || sep || N.eqb c 45 then inr SUsage
           else match dget [45%N; c] (sp_options sp) with
                | None => inl ([a], EUnknown (45%N :: e))
                | Some a' =>
                    bundled a (match e' with
                               | [] => plain_option a'
                               | d :: e'' => if N.eqb d 61 then explicit_option a' false true e'' else explicit_option a' false false e'
                               end)
                end
       end.
(** argparse's consume_optional for one word *)
Definition option_word (t : found) (s : str) : parse_of (list (str * kind) * ends_with) :=
  match fd_option t with
  | None => inl ([], EUnknown s)
  | Some a => match fd_explicit t with
              | None => plain_option a
              | Some e => explicit_option a (is_long (fd_string t)) (match fd_sep t with [] => false | _ => true end) e
              end
  end.
(** argparse's take_action: help, store_true, store.  _get_values removes a -- first. *)
Definition store (a : str * kind) (v : str) (os : dict value) : parse_of (dict value) :=
  match snd a with
  | KHelp => inr SHelp
  | KFlag => inl (dset (fst a) VTrue os)
  | KValue choices =>
      if str_eqb v (u "--") then inr SCrash
      else match choices with
           | Some l => if memb v l then inl (dset (fst a) (VStr v) os) else inr SUsage
           | None => inl (dset (fst a) (VStr v) os)
           end
  end.
(** take_action for the flags of a bundle *)
Fixpoint store_flags (l : list (str * kind)) (os : dict value) : parse_of (dict value) :=
  match l with [] => inl os | a :: r => andthen (store a [] os) (store_flags r) end.

(** arg_strings.remove('--') in _get_values: the first one, if there is one *)
Fixpoint drop_dashes (l : list str) : list str := match l with [] => [] | x :: r => if str_eqb x (u "--") then r else x :: drop_dashes r end.
(** The pattern -*A-* of a positional without nargs (there is at most one letter -) *)
Definition take_one (group : list letter) : option (list str * list letter) :=
  match group with
  | LA v :: LDashes :: r => Some ([v; u "--"], r)
  | LA v :: r => Some ([v], r)
  | LDashes :: LA v :: r => Some ([u "--"; v], r)
  | _ => None
  end.
(** argparse's consume_positionals on the letters up to the next option: what is stored, the positionals and the letters left over *)
Fixpoint fill (ps : list nargs) (group : list letter) (done : list (list str)) : parse_of (list (list str) * list nargs * list letter) :=
  match ps with
  | [] => inl (done, [], group)
  | One :: r =>
      match take_one group with
      | None => inl (done, ps, group)
      | Some (args, rest) => match drop_dashes args with [v] => fill r rest (done ++ [[v]]) | _ => inr SCrash end
      end
  | Plus :: r => if existsb is_word group then fill r [] (done ++ [drop_dashes (map word_of group)]) else inl (done, ps, group)
  | Star :: r => fill r [] (done ++ [drop_dashes (map word_of group)])
  end.
(** Between options nothing is done if there is nothing; at the end consume_positionals is called anyway. *)
Definition group_done (final : bool) (group : list letter) (done : list (list str)) (ps : list nargs) (extras : list str) : parse_of (list (list str) * list nargs * list str) :=
  match group, final with
  | [], false => inl (done, ps, extras)
  | _, _ => andthen (fill ps group done) (fun '(done, ps, rest) => inl (done, ps, extras ++ map word_of rest))
  end.
(** Not in /repo: options, positionals stored, positionals open, extras *)
Definition state : Type := dict value * list (list str) * list nargs * list str.
(** The main loop of argparse's _parse_known_args *)
Fixpoint run_words (toks group : list letter) (os : dict value) (done : list (list str)) (ps : list nargs) (extras : list str) : parse_of state :=
  match toks with
  | [] => andthen (group_done true group done ps extras) (fun '(done, ps, extras) => inl (os, done, ps, extras))
  | LO t s :: r =>
      andthen (group_done false group done ps extras) (fun '(done, ps, extras) =>
      andthen (option_word t s) (fun fl =>
        match snd fl with
        | EFlag => andthen (store_flags (fst fl) os) (fun os => run_words r [] os done ps extras)
        | EUnknown x => andthen (store_flags (fst fl) os) (fun os => run_words r [] os done ps (extras ++ [x]))
        | EValue a v => andthen (store_flags (fst fl) os) (fun os => andthen (store a v os) (fun os => run_words r [] os done ps extras))
        | ENext a =>
            match r with
            | LA v :: r' => andthen (store_flags (fst fl) os) (fun os => andthen (store a v os) (fun os => run_words r' [] os done ps extras))
            | _ => inr SUsage
            end
        end))
  | t :: r => run_words r (group ++ [t]) os done ps extras
  end.
(** parse_args: every positional is there, and nothing is left over (no option of these scripts is required) *)
Definition parse_command (argv : list str) : parse_of (dict value * list (list str)) :=
  andthen (letters_of argv) (fun toks =>
  andthen (run_words toks [] [] [] (sp_positionals sp) []) (fun '(os, done, ps, extras) =>
    match ps, extras with [], [] => inl (os, done) | _, _ => inr SUsage end)).
End Parser.

(** ** The parsers *)
(** -h and --help, which argparse adds first *)
Definition with_help (l : list (str * (str * kind))) : list (str * (str * kind)) := (u "-h", (u "help", KHelp)) :: (u "--help", (u "help", KHelp)) :: l.
(** debtally.py:108-111, preflib.py:85-88, html_output_pairwise.py:220-223, html_output_scorestar.py:55-58, pairwise.py:145-149, scorestar.py:166-170,
    configtool.py:96-100 *)
Definition one_file : spec := Spec (with_help []) [One].
(** irvtally.py:285-290 *)
Definition irvtally_spec : spec := Spec (with_help [(u "-j", (u "json", KFlag)); (u "--json", (u "json", KFlag))]) [One].
(** copedot.py:24-35 *)
Definition copedot_spec : spec := Spec (with_help [(u "--outfmt", (u "outfmt", KValue (Some [u "dot"; u "json"; u "svg"])))]) [One].
(** core.py:687-698 *)
Definition core_spec : spec :=
  let func := KValue (Some [u "pref_to_dict"; u "process_abif_prefline"; u "emptyish"; u "modify_jabmod"]) in
  Spec (with_help [(u "-f", (u "func", func)); (u "--func", (u "func", func))]) [Plus].
(** sftxt.py:339-357 *)
Definition sftxt_spec : spec :=
  Spec (with_help [(u "--imagelines", (u "imagelines", KFlag)); (u "-o", (u "outfile", KValue None)); (u "--outfile", (u "outfile", KValue None));
                   (u "--contestid", (u "contestid", KValue None)); (u "--outputformat", (u "outputformat", KValue None)); (u "--consolidate", (u "consolidate", KFlag))]) [One; One].
(** fetchmgr.py:228-241 *)
Definition fetchmgr_spec : spec := Spec (with_help [(u "--abif", (u "abif", KValue None)); (u "-a", (u "abif", KValue None))]) [Star].
(** args.x of a store_true option *)
Definition is_set (d : string) (os : dict value) : bool := match dget (u d) os with Some VTrue => true | _ => false end.
(** args.x of an option with a value *)
Definition value_of (d : string) (os : dict value) : option str := match dget (u d) os with Some (VStr s) => Some s | _ => None end.
(** args.x of an option with a value and a default= *)
Definition value_or (d : string) (default : str) (os : dict value) : str := match value_of d os with Some s => s | None => default end.
