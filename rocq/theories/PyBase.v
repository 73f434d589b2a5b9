(** * PyBase: the fragment of Python's runtime the model relies on.

    Nothing in this file models code of /repo; it models the Python builtins that code uses
    (str, int, dict, sorted, exceptions).  Proofs about these definitions are in PyFacts.v. *)

From Coq Require Export Ascii String.
From Coq Require Export List Arith NArith ZArith Bool.
Export ListNotations.
Notation length := List.length.
Local Open Scope bool_scope.

(** A Python [str]: the list of its Unicode code points. *)
Definition str := list N.

(** Source-file convenience: an ASCII Coq literal as a Python string. *)
Fixpoint u (s : string) : str :=
  match s with
  | EmptyString => []
  | String a r => N_of_ascii a :: u r
  end.

(** Exceptions as values.  [VotelineExn] is ABIFVotelineException (core.py:34-42).  [RecursionError]
    is what a model function with explicit fuel returns when the fuel runs out (theorems show it does
    not happen); Python's own recursion limit is not modelled. *)
Inductive exn :=
| KeyError | IndexError | ValueError | TypeError | NameError | AttributeError
| ZeroDivisionError | UnicodeError | FileExistsError | FileNotFoundError | GenericException
| RecursionError | VotelineExn | OSError | RequestException | SystemExit | RuntimeError.

(** Python: a value, or the exception raised. *)
Inductive result (A : Type) :=
| Ok (a : A)
| Err (e : exn).
Arguments Ok {A} a.
Arguments Err {A} e.

(** Python: what follows is done unless an exception was raised. *)
Definition bind {A B} (x : result A) (f : A -> result B) : result B :=
  match x with Ok a => f a | Err e => Err e end.

Declare Scope res_scope.
Delimit Scope res_scope with res.
Notation "'let*' x ':=' e 'in' b" := (bind e (fun x => b))
  (at level 200, x pattern, e at level 100, b at level 200, right associativity) : res_scope.

(** Python: [f(x) for x in l] where f may raise. *)
Fixpoint mapM {A B} (f : A -> result B) (l : list A) : result (list B) :=
  match l with
  | [] => Ok []
  | x :: r => bind (f x) (fun y => bind (mapM f r) (fun ys => Ok (y :: ys)))
  end.

(** Python: a loop over l whose body changes the state and may raise. *)
Fixpoint foldM {S A} (f : S -> A -> result S) (l : list A) (s : S) : result S :=
  match l with
  | [] => Ok s
  | x :: r => bind (f s x) (foldM f r)
  end.

(** Python: the exception for a missing value. *)
Definition of_option {A} (e : exn) (o : option A) : result A :=
  match o with Some a => Ok a | None => Err e end.

(** ** Strings *)

Fixpoint str_eqb (a b : str) : bool :=
  match a, b with
  | [], [] => true
  | x :: a', y :: b' => N.eqb x y && str_eqb a' b'
  | _, _ => false
  end.

(** Python's [<=] on str: lexicographic by code point. *)
Fixpoint str_leb (a b : str) : bool :=
  match a, b with
  | [], _ => true
  | _ :: _, [] => false
  | x :: a', y :: b' => if N.eqb x y then str_leb a' b' else N.ltb x y
  end.

(** x in l, for strs *)
Fixpoint memb (x : str) (l : list str) : bool :=
  match l with
  | [] => false
  | y :: r => str_eqb x y || memb x r
  end.

(** str.isspace() on one code point, which is also the regex class [\s] for str patterns. *)
Definition is_space (c : N) : bool :=
  ((9 <=? c) && (c <=? 13) || (28 <=? c) && (c <=? 32) || (c =? 133) || (c =? 160)
   || (c =? 5760) || (8192 <=? c) && (c <=? 8202) || (c =? 8232) || (c =? 8233)
   || (c =? 8239) || (c =? 8287) || (c =? 12288))%N.

(** The line boundaries of str.splitlines() ("\r\n" handled in [splitlines]). *)
Definition is_linebreak (c : N) : bool :=
  ((10 <=? c) && (c <=? 13) || (28 <=? c) && (c <=? 30) || (c =? 133)
   || (c =? 8232) || (c =? 8233))%N.

(** Code points of the decimal digit zero in each block of Unicode category Nd (Unicode 14.0);
    each block is ten consecutive code points. *)
Definition nd_zeros : list N :=
  [48; 1632; 1776; 1984; 2406; 2534; 2662; 2790; 2918; 3046; 3174; 3302; 3430; 3558; 3664;
   3792; 3872; 4160; 4240; 6112; 6160; 6470; 6608; 6784; 6800; 6992; 7088; 7232; 7248; 42528;
   43216; 43264; 43472; 43504; 43600; 44016; 65296; 66720; 68912; 69734; 69872; 69942; 70096;
   70384; 70736; 70864; 71248; 71360; 71472; 71904; 72016; 72784; 73040; 73120; 92768; 92864;
   93008; 120782; 120792; 120802; 120812; 120822; 123200; 123632; 125264; 130032]%N.

(** Python: the value of a decimal digit, see [nd_zeros]. *)
Fixpoint digit_in (zs : list N) (c : N) : option N :=
  match zs with
  | [] => None
  | z :: r => if ((z <=? c) && (c <? z + 10))%N then Some (c - z)%N else digit_in r c
  end.

(** Value of a decimal digit character (unicodedata.decimal), [None] if not category Nd. *)
Definition digit_val (c : N) : option N := digit_in nd_zeros c.

(** Regex class [\d] for str patterns. *)
Definition is_digit (c : N) : bool :=
  match digit_val c with Some _ => true | None => false end.

(** s.lstrip() *)
Fixpoint lstrip (s : str) : str :=
  match s with
  | [] => []
  | c :: r => if is_space c then lstrip r else s
  end.

(** s.rstrip() *)
Definition rstrip (s : str) : str := rev (lstrip (rev s)).

(** str.strip() *)
Definition strip (s : str) : str := rstrip (lstrip s).

(** str.splitlines(): lines without their terminators; "\r\n" is one terminator; no empty last
    line after a final terminator. *)
Fixpoint splitlines_aux (s : str) (cur : str) (started : bool) : list str :=
  match s with
  | [] => if started then [rev cur] else []
  | c :: r =>
      if is_linebreak c then
        rev cur ::
        match r with
        | c' :: r' =>
            if (N.eqb c 13 && N.eqb c' 10)%bool then splitlines_aux r' [] false
            else splitlines_aux r [] false
        | [] => splitlines_aux r [] false
        end
      else splitlines_aux r (c :: cur) true
  end.
(** str.splitlines() *)
Definition splitlines (s : str) : list str := splitlines_aux s [] false.

(** sep.join(l) *)
Fixpoint join (sep : str) (l : list str) : str :=
  match l with
  | [] => []
  | [x] => x
  | x :: r => x ++ sep ++ join sep r
  end.

(** s.split(c) for a one-character separator: always at least one piece. *)
Fixpoint split_on (c : N) (s : str) : list str :=
  match s with
  | [] => [[]]
  | x :: r =>
      if N.eqb x c then [] :: split_on c r
      else match split_on c r with
           | [] => [[x]]
           | p :: ps => (x :: p) :: ps
           end
  end.

(** s.split(c, 1): split at the first occurrence only. *)
Fixpoint split_once (c : N) (s : str) : option (str * str) :=
  match s with
  | [] => None
  | x :: r => if N.eqb x c then Some ([], r)
              else match split_once c r with
                   | None => None
                   | Some (a, b) => Some (x :: a, b)
                   end
  end.

(** ** Integers *)

(** str(n) for a non-negative integer; fuel is the bit length, always enough (PyFacts). *)
Fixpoint n2s_aux (fuel : nat) (n : N) (acc : str) : str :=
  match fuel with
  | O => acc
  | S f =>
      let d := (48 + n mod 10)%N in
      if (n / 10 =? 0)%N then d :: acc else n2s_aux f (n / 10)%N (d :: acc)
  end.
(** str(n) for a non-negative integer *)
Definition n2s (n : N) : str := n2s_aux (S (N.size_nat n)) n [].

(** str(z) / f"{z}" for an int. *)
Definition z2s (z : Z) : str :=
  match z with
  | Zneg p => 45%N :: n2s (Npos p)
  | _ => n2s (Z.to_N z)
  end.

(** Digits of int()'s grammar: digit ( "_"? digit )*; [None] on anything else. *)
Fixpoint digits_val (s : str) (acc : N) (need : bool) : option N :=
  match s with
  | [] => if need then None else Some acc
  | c :: r =>
      match digit_val c with
      | Some d => digits_val r (10 * acc + d)%N false
      | None => if (N.eqb c 95 && negb need)%bool then digits_val r acc true else None
      end
  end.

(** int(s) for a str: surrounding whitespace, optional sign, digits with single underscores
    between them, any Unicode decimal digits; ValueError otherwise.  Not modelled: the 4300-digit
    limit of Python >= 3.11. *)
Definition py_int (s : str) : result Z :=
  match strip s with
  | 45%N :: r => of_option ValueError (option_map (fun n => Z.opp (Z.of_N n)) (digits_val r 0 true))
  | 43%N :: r => of_option ValueError (option_map Z.of_N (digits_val r 0 true))
  | r => of_option ValueError (option_map Z.of_N (digits_val r 0 true))
  end.

(** ** Dictionaries: insertion-ordered association lists *)

Definition dict (V : Type) := list (str * V).

(** list(d.keys()) *)
Definition dkeys {V} (d : dict V) : list str := map fst d.
(** list(d.values()) *)
Definition dvals {V} (d : dict V) : list V := map snd d.

(** d.get(k) *)
Fixpoint dget {V} (k : str) (d : dict V) : option V :=
  match d with
  | [] => None
  | (k', v) :: r => if str_eqb k k' then Some v else dget k r
  end.

(** k in d *)
Definition dmem {V} (k : str) (d : dict V) : bool :=
  match dget k d with Some _ => true | None => false end.

(** d[k]: KeyError when absent. *)
Definition dgetE {V} (k : str) (d : dict V) : result V := of_option KeyError (dget k d).

(** d[k] = v: keeps the position of an existing key, appends a new one. *)
Fixpoint dset {V} (k : str) (v : V) (d : dict V) : dict V :=
  match d with
  | [] => [(k, v)]
  | (k', v') :: r => if str_eqb k k' then (k', v) :: r else (k', v') :: dset k v r
  end.

(** del d[k] (callers check membership first). *)
Fixpoint ddel {V} (k : str) (d : dict V) : dict V :=
  match d with
  | [] => []
  | (k', v') :: r => if str_eqb k k' then r else (k', v') :: ddel k r
  end.

(** d[k] = f(d[k]): KeyError when absent. *)
Definition dmodE {V} (k : str) (f : V -> V) (d : dict V) : result (dict V) :=
  match dget k d with
  | Some v => Ok (dset k (f v) d)
  | None => Err KeyError
  end.

(** ** sorted(): stable sort *)

Fixpoint insert_by {A} (leb : A -> A -> bool) (x : A) (l : list A) : list A :=
  match l with
  | [] => [x]
  | y :: r => if leb x y then x :: y :: r else y :: insert_by leb x r
  end.

(** Stable: [x] came before everything already in the accumulator, so it goes before its equals. *)
Definition sort_by {A} (leb : A -> A -> bool) (l : list A) : list A :=
  fold_right (insert_by leb) [] l.

(** sorted(l, key=k) and sorted(l, key=k, reverse=True) for integer keys; Python keeps the original
    order of equal elements in both. *)
Definition sort_asc {A} (k : A -> Z) (l : list A) : list A :=
  sort_by (fun x y => (k x <=? k y)%Z) l.
(** sorted(l, key=k, reverse=True) *)
Definition sort_desc {A} (k : A -> Z) (l : list A) : list A :=
  sort_by (fun x y => (k y <=? k x)%Z) l.

(** sum(l) *)
Fixpoint zsum (l : list Z) : Z :=
  match l with [] => 0%Z | x :: r => (x + zsum r)%Z end.

(** sorted(l) for strings. *)
Definition sort_str (l : list str) : list str := sort_by str_leb l.
