(** * ArgvModel: the command line of abiftool.py (abiftool.py:94-121, 281-283)

    argparse itself is the standard library's (the parts of parse_args that the ten arguments of lines 104-119 reach, as in Python 3.11; other versions differ only in
    combined short options such as -dm=x).  Help and usage texts are not modelled.  Simplification: an option value that is exactly -- (as in --to=--) makes
    Python 3.11 end with a ValueError and status 1; here it is a usage error, status 2 (ArgparseModel, for the other scripts, tells the two apart). *)

From Verif Require Import PyBase Jabmod IrvModel CliModel.
Local Open Scope Z_scope.

(** Lines 104-119: the arguments, and the -h that argparse adds. *)
Inductive action := AHelp | ADebug | AFrom | ATo | AModifier | AWidth | ACleanws | AAddScores.
(** parser._option_string_actions, in the order of the add_argument calls *)
Definition option_strings : list (str * action) :=
  [(u "-h", AHelp); (u "--help", AHelp); (u "-d", ADebug); (u "--debug", ADebug); (u "-f", AFrom); (u "--fromfmt", AFrom); (u "-t", ATo); (u "--to", ATo);
   (u "-m", AModifier); (u "--modifier", AModifier); (u "-w", AWidth); (u "--width", AWidth); (u "--cleanws", ACleanws); (u "--add-scores", AAddScores)].
(** abiftool.py:108-115: the actions that store or append a value (-f, -t, -m, -w); the others have action='store_true' or are -h. *)
Definition takes_value (a : action) : bool := match a with AFrom | ATo | AModifier | AWidth => true | _ => false end.

(** ** The namespace *)
Record namespace := Namespace { ns_files : option (list str); ns_debug : bool; ns_from : option str; ns_to : str; ns_modifier : option (list str); ns_width : Z; ns_cleanws : bool; ns_add_scores : bool }.
(** abiftool.py:104-119: the namespace before anything is parsed, with the default= values of the add_argument calls. *)
Definition defaults : namespace := Namespace None false None (u "text") None 160 false false.

(** parser.error() and the exit of -h *)
Inductive stop := UsageError | HelpShown.
(** Not in /repo: what a step of argparse gives, a value or a stop. *)
Definition parsing (A : Type) : Type := A + stop.
(** Not in /repo: sequencing of such steps. *)
Definition then_ {A B} (x : parsing A) (f : A -> parsing B) : parsing B := match x with inl a => f a | inr e => inr e end.

(** take_action for an option: the store, append, store_true and help actions, with choices and type=int *)
Definition take_option (a : action) (value : str) (ns : namespace) : parsing namespace :=
  let (fi, de, fr, to, mo, wi, cl, sc) := ns in
  match a with
  | AHelp => inr HelpShown
  | ADebug => inl (Namespace fi true fr to mo wi cl sc)
  | AFrom => if memb value validinfmts then inl (Namespace fi de (Some value) to mo wi cl sc) else inr UsageError
  | ATo => if memb value validoutfmts then inl (Namespace fi de fr value mo wi cl sc) else inr UsageError
  | AModifier => if memb value validmod then inl (Namespace fi de fr to (Some (match mo with Some l => l ++ [value] | None => [value] end)) wi cl sc) else inr UsageError
  | AWidth => match py_int value with Ok z => inl (Namespace fi de fr to mo z cl sc) | Err _ => inr UsageError end
  | ACleanws => inl (Namespace fi de fr to mo wi true sc)
  | AAddScores => inl (Namespace fi de fr to mo wi cl true)
  end.

(** ** _parse_optional *)
Definition ends_newline (s : str) : bool := match rev s with c :: _ => N.eqb c 10 | [] => false end.
(** s.partition('='): what is before, and what is after if there is one *)
Definition partition_eq (s : str) : str * option str := match split_once 61 s with Some (a, b) => (a, Some b) | None => (s, None) end.
(** s.startswith(p), in argparse's _get_option_tuples (called from abiftool.py:121, parse_args). *)
Fixpoint is_prefix (p s : str) : bool :=
  match p, s with
  | [], _ => true
  | c :: p', d :: s' => N.eqb c d && is_prefix p' s'
  | _, [] => false
  end.
(** An option: its action (None for an unknown one), its option string, the separator and the explicit argument *)
Record option_tuple := OptionTuple { ot_action : option action; ot_string : str; ot_sep : str; ot_explicit : option str }.
(** _get_option_tuples: abbreviations of long options, and short options with their argument attached *)
Definition get_option_tuples (s : str) : list option_tuple :=
  match s with
  | _ :: c1 :: rest =>
      if N.eqb c1 45 then
        let (prefix, explicit) := partition_eq s in
        flat_map (fun oa => if is_prefix prefix (fst oa) then [OptionTuple (Some (snd oa)) (fst oa) (u "=") explicit] else []) option_strings
      else
        flat_map (fun oa => if str_eqb (fst oa) [45%N; c1] then [OptionTuple (Some (snd oa)) (fst oa) [] (Some rest)]
                            else if is_prefix s (fst oa) then [OptionTuple (Some (snd oa)) (fst oa) [] None] else []) option_strings
  | _ => []
  end.
(** The regular expression ^-\d+$|^-\d*\.\d+$ ($ also matches before a final newline) *)
Definition all_digits (s : str) : bool := match s with [] => false | _ => forallb is_digit s end.
(** argparse's _negative_number_matcher.match(s) (library, reached from abiftool.py:121). *)
Definition negative_number (s : str) : bool :=
  match s with
  | c :: r =>
      N.eqb c 45 &&
      let r := if ends_newline r then removelast r else r in
      match split_once 46 r with
      | None => all_digits r
      | Some (a, b) => forallb is_digit a && all_digits b
      end
  | [] => false
  end.
(** inl None: an argument; inl (Some t): an option; inr: the abbreviation is ambiguous *)
Definition parse_optional (s : str) : parsing (option option_tuple) :=
  match s with
  | c :: r =>
      if negb (N.eqb c 45) then inl None
      else match dget s option_strings with
      | Some a => inl (Some (OptionTuple (Some a) s [] None))
      | None =>
          match r with
          | [] => inl None
          | _ =>
              let (before, after) := partition_eq s in
              match after, dget before option_strings with
              | Some e, Some a => inl (Some (OptionTuple (Some a) before (u "=") (Some e)))
              | _, _ =>
                  match get_option_tuples s with
                  | _ :: _ :: _ => inr UsageError
                  | [t] => inl (Some t)
                  | [] => if negative_number s then inl None else if existsb (N.eqb 32) s then inl None else inl (Some (OptionTuple None s [] None))
                  end
              end
          end
      end
  | [] => inl None
  end.

(** ** _parse_known_args *)
(** The letters O, A and - of arg_strings_pattern, with what they stand for *)
Inductive token := TOption (t : option_tuple) (s : str) | TArgument (s : str) | TDashes.
(** The letter A of arg_strings_pattern (argparse, reached from abiftool.py:121). *)
Definition is_argument (t : token) : bool := match t with TArgument _ => true | _ => false end.
(** The command line word a letter of arg_strings_pattern stands for (argparse, reached from abiftool.py:121). *)
Definition token_str (t : token) : str := match t with TOption _ s => s | TArgument s => s | TDashes => u "--" end.
(** The loop of argparse's _parse_known_args that makes arg_strings_pattern: after -- everything is an argument (reached from abiftool.py:121). *)
Fixpoint classify (argv : list str) : parsing (list token) :=
  match argv with
  | [] => inl []
  | s :: r =>
      if str_eqb s (u "--") then inl (TDashes :: map TArgument r)
      else then_ (parse_optional s) (fun o => then_ (classify r) (fun l => inl (match o with Some t => TOption t s | None => TArgument s end :: l)))
  end.

(** consume_optional: the flags, and then what the last option in the string does *)
Inductive last_option := LFlag | LValue (a : action) (value : str) | LNext (a : action) | LUnknown (s : str).
(** A flag met before the rest of a bundle of short options (argparse's consume_optional). *)
Definition with_flag (a : action) (x : parsing (list action * last_option)) : parsing (list action * last_option) :=
  then_ x (fun fl => inl (a :: fst fl, snd fl)).
(** consume_optional without explicit argument: a flag acts at once, another option takes the next word. *)
Definition no_explicit (a : action) : parsing (list action * last_option) := inl (if takes_value a then ([], LNext a) else ([a], LFlag)).
(** [long]: option_string[1] is a '-'; [sep]: there was a '='; [e]: the explicit argument *)
Fixpoint explicit_options (a : action) (long sep : bool) (e : str) : parsing (list action * last_option) :=
  if takes_value a then inl ([], LValue a e)
  else match e with
       | [] => inr UsageError
       | c :: e' =>
           if long || sep || N.eqb c 45 then inr UsageError
           else match dget [45%N; c] option_strings with
                | None => inl ([a], LUnknown (45%N :: e))
                | Some a' =>
                    with_flag a (match e' with
                                 | [] => no_explicit a'
                                 | d :: e'' => if N.eqb d 61 then explicit_options a' false true e'' else explicit_options a' false false e'
                                 end)
                end
       end.
(** option_string[1] is a dash (argparse's consume_optional). *)
Definition is_long (s : str) : bool := match s with _ :: c :: _ => N.eqb c 45 | _ => false end.
(** argparse's consume_optional for one word of the command line (reached from abiftool.py:121). *)
Definition options_of (t : option_tuple) (s : str) : parsing (list action * last_option) :=
  match ot_action t with
  | None => inl ([], LUnknown s)
  | Some a => match ot_explicit t with
              | None => no_explicit a
              | Some e => explicit_options a (is_long (ot_string t)) (match ot_sep t with [] => false | _ => true end) e
              end
  end.
(** argparse's take_action for the flags, in order; -h stops (reached from abiftool.py:121). *)
Fixpoint take_flags (l : list action) (ns : namespace) : parsing namespace :=
  match l with
  | [] => inl ns
  | a :: r => then_ (take_option a [] ns) (take_flags r)
  end.

(** consume_positionals: the pattern -*A[A-]* of nargs='+' takes everything up to the next option, once, if there is an argument in it; a -- is
    removed (_get_values).  What is left over goes to extras. *)
Definition with_files (fs : list str) (ns : namespace) : namespace :=
  let (_, de, fr, to, mo, wi, cl, sc) := ns in Namespace (Some fs) de fr to mo wi cl sc.
(** argparse's consume_positionals for one group of words (input_file of abiftool.py:104-105). *)
Definition close_group (group : list token) (ns : namespace) (extras : list str) : namespace * list str :=
  match ns_files ns with
  | None => if existsb is_argument group
            then (with_files (map token_str (filter is_argument group)) ns, extras)
            else (ns, extras ++ map token_str group)
  | Some _ => (ns, extras ++ map token_str group)
  end.
(** The main loop of argparse's _parse_known_args, word for word (reached from abiftool.py:121). *)
Fixpoint consume (toks group : list token) (ns : namespace) (extras : list str) : parsing (namespace * list str) :=
  match toks with
  | [] => inl (close_group group ns extras)
  | TOption t s :: r =>
      let (ns, extras) := close_group group ns extras in
      then_ (options_of t s) (fun fl =>
        match snd fl with
        | LFlag => then_ (take_flags (fst fl) ns) (fun ns => consume r [] ns extras)
        | LUnknown x => then_ (take_flags (fst fl) ns) (fun ns => consume r [] ns (extras ++ [x]))
        | LValue a v => then_ (take_flags (fst fl) ns) (fun ns => then_ (take_option a v ns) (fun ns => consume r [] ns extras))
        | LNext a =>
            match r with
            | TArgument v :: r' => then_ (take_flags (fst fl) ns) (fun ns => then_ (take_option a v ns) (fun ns => consume r' [] ns extras))
            | _ => inr UsageError
            end
        end)
  | t :: r => consume r (group ++ [t]) ns extras
  end.

(** parse_args: input_file is required, and nothing may be left over *)
Definition parse_args (argv : list str) : parsing (args * bool) :=
  then_ (classify argv) (fun toks =>
    then_ (consume toks [] defaults []) (fun p =>
      let (ns, extras) := p in
      match ns_files ns, extras with
      | Some fs, [] => inl (Args fs (ns_from ns) (ns_to ns) (ns_modifier ns) (ns_width ns) (ns_cleanws ns) (ns_add_scores ns), ns_debug ns)
      | _, _ => inr UsageError
      end)).

(** ** The program *)
(** sys.exit(2) of parser.error (which writes to stderr only), the exit of -h, and main.  [help] is the text of --help. *)
Record process := Process { p_reads : list str; p_stdout : str; p_status : Z }.
(** abiftool.py:280-283: main came to its end, past the return of line 137.  Nothing ever puts anything into DEBUGARRAY (devtools.py:33). *)
Definition finished (a : args) (o : outcome) : bool :=
  match o_ending o, input_format a with Done, Ok f => memb f validinfmts | _, _ => false end.
(** abiftool.py:281-283: what -d prints at the end. *)
Definition debug_line : str := println (u "DEBUGARRAY=[]").
(** abiftool.py:93-287, the whole program: parse_args, then main of CliModel, then -d. *)
Definition abiftool (s : surroundings) (rn : rendering) (help : str) (argv : list str) : process :=
  match parse_args argv with
  | inr UsageError => Process [] [] 2
  | inr HelpShown => Process [] help 0
  | inl (a, debug) =>
      let o := main s rn a in
      Process (o_reads o) (o_stdout o ++ (if debug && finished a o then debug_line else [])) (exit_status (o_ending o))
  end.
