(** * Regex: the fragment of Python's re engine the patterns of /repo use.

    Backtracking matcher in continuation-passing style: alternatives are tried in Python's order
    (greedy), the first overall success wins, and the groups are those of that success.  Repetition is
    only ever applied to one-character patterns in /repo, so [RStar] repeats a character class. *)

From Verif Require Import PyBase.

(** Python's re: the patterns of abifregex.py, core.py, debtally.py, preflib.py and sftxt.py are written with these. *)
Inductive regex :=
| RChr (p : N -> bool)            (* one character of a class *)
| REps                            (* empty *)
| RSeq (a b : regex)
| RAlt (a b : regex)              (* a|b, tried in this order *)
| RStar (p : N -> bool)           (* greedy p* *)
| RGrp (n : nat) (r : regex)      (* capturing group n *)
| REnd.                           (* $ without MULTILINE: at the end, or before a final newline *)

Definition caps := list (nat * str).

(** A greedy star: as many characters as possible, fewer if the rest does not match. *)
Fixpoint star_go {R} (p : N -> bool) (k : str -> option R) (s : str) : option R :=
  match s with
  | [] => k []
  | c :: s' =>
      if p c then
        match star_go p k s' with
        | Some x => Some x
        | None => k s
        end
      else k s
  end.

(** Backtracking match with what must follow as [k]. *)
Fixpoint rm {R} (r : regex) (s : str) (cs : caps) (k : str -> caps -> option R) : option R :=
  match r with
  | RChr p => match s with c :: s' => if p c then k s' cs else None | [] => None end
  | REps => k s cs
  | RSeq a b => rm a s cs (fun s' cs' => rm b s' cs' k)
  | RAlt a b => match rm a s cs k with Some x => Some x | None => rm b s cs k end
  | RStar p => star_go p (fun s' => k s' cs) s
  | RGrp n r' => rm r' s cs (fun s' cs' => k s' ((n, firstn (length s - length s') s) :: cs'))
  | REnd => match s with
            | [] => k s cs
            | [10%N] => k s cs
            | _ => None
            end
  end.

(** re.match(r, s): anchored at the start only.  Returns the groups and the rest of the string. *)
Definition re_match (r : regex) (s : str) : option (caps * str) :=
  rm r s [] (fun s' cs => Some (cs, s')).

(** m.group(n); the last match of the group counts *)
Fixpoint group (n : nat) (cs : caps) : str :=
  match cs with
  | [] => []
  | (i, t) :: r => if Nat.eqb i n then t else group n r
  end.

(** [p]+ *)
Definition RPlus (p : N -> bool) : regex := RSeq (RChr p) (RStar p).
(** [p]? *)
Definition ROpt (p : N -> bool) : regex := RAlt (RChr p) REps.
(** One character *)
Definition RLit (c : N) : regex := RChr (N.eqb c).
(** A literal text *)
Fixpoint RWord (s : str) : regex :=
  match s with
  | [] => REps
  | c :: r => RSeq (RLit c) (RWord r)
  end.
(** One after the other *)
Fixpoint RSeqs (l : list regex) : regex :=
  match l with
  | [] => REps
  | [r] => r
  | r :: l' => RSeq r (RSeqs l')
  end.

(** Character classes. *)
Definition one_of (l : str) (c : N) : bool := existsb (N.eqb c) l.
(** [^...] *)
Definition none_of (l : str) (c : N) : bool := negb (one_of l c).
(** The dot *)
Definition any_char (c : N) : bool := negb (N.eqb c 10).   (* "." *)
Definition non_space (c : N) : bool := negb (is_space c).
