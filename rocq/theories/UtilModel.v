(** * UtilModel: abiflib/util.py token shortening, abiflib/core.py nested-value helpers *)

From Verif Require Import PyBase Jabmod Regex JsonText DebtallyModel SftxtModel.
Local Open Scope Z_scope.
Local Open Scope res_scope.

(** utf8_string_to_abif_token, util.py:63-76.  [add_sha1] is never used there.  Simplification: max_length >= 0. *)
Definition utf8_string_to_abif_token (max_length : nat) (longstring : str) : str :=
  if (length longstring <=? max_length)%nat && match re_match ALNUM_REGEX longstring with Some _ => true | None => false end
  then longstring
  else firstn max_length (sub_write_in 0 (underscores false longstring)).

(** ** Nested values *)
(** Python values as clean_dict and _modify_jabmod meet them.  Keys and set elements are strings or ints; a
    set is given with the order in which it is iterated.  [VOther] is any other object (float, bool, ...).
    Simplification: values are trees (no object is reachable in two ways). (core.py:600-637) *)
Inductive atom := KStr (s : str) | KInt (z : Z).
(** The values clean_dict (core.py:623-637) and _modify_jabmod (core.py:600-615) meet, see above. *)
Inductive pyval :=
| VAtom (a : atom)
| VNone
| VOther (s : str)
| VTuple (l : list pyval)
| VSet (l : list atom)
| VDict (l : list (atom * pyval))
| VList (l : list pyval).

(** clean_dict, core.py:623-637 *)
Fixpoint clean_dict (data : pyval) : pyval :=
  match data with
  | VSet l => VList (map VAtom l)
  | VDict l => VDict (map (fun kv => (fst kv, clean_dict (snd kv))) l)
  | VList l => VList (map clean_dict l)
  | other => other
  end.

(** == on keys (core.py:600-637) *)
Definition atom_eqb (a b : atom) : bool :=
  match a, b with
  | KStr s, KStr t => str_eqb s t
  | KInt x, KInt y => x =? y
  | _, _ => false
  end.
(** d.get(k) (core.py:612) *)
Fixpoint vget (k : atom) (l : list (atom * pyval)) : option pyval :=
  match l with [] => None | (k', v) :: r => if atom_eqb k k' then Some v else vget k r end.
(** d[k] = v (core.py:609) *)
Fixpoint vset (k : atom) (v : pyval) (l : list (atom * pyval)) : list (atom * pyval) :=
  match l with [] => [(k, v)] | (k', w) :: r => if atom_eqb k k' then (k', v) :: r else (k', w) :: vset k v r end.
(** A Python index into a sequence of n elements, negative ones counting from the end. (core.py:607-612) *)
Definition seq_index (n : nat) (z : Z) : option nat :=
  if (0 <=? z) && (z <? Z.of_nat n) then Some (Z.to_nat z)
  else if (z <? 0) && (0 <=? Z.of_nat n + z) then Some (Z.to_nat (Z.of_nat n + z))
  else None.
(** l[n] = x (core.py:609) *)
Fixpoint replace_nth {A} (n : nat) (x : A) (l : list A) : list A :=
  match n, l with
  | O, _ :: r => x :: r
  | S k, y :: r => y :: replace_nth k x r
  | _, [] => []
  end.

(** v[k] (core.py:612) *)
Definition item (v : pyval) (k : atom) : result pyval :=
  match v, k with
  | VDict l, _ => of_option KeyError (vget k l)
  | VList l, KInt z | VTuple l, KInt z =>
      let* i := of_option IndexError (seq_index (length l) z) in of_option IndexError (nth_error l i)
  | VAtom (KStr s), KInt z =>
      let* i := of_option IndexError (seq_index (length s) z) in let* c := of_option IndexError (nth_error s i) in Ok (VAtom (KStr [c]))
  | _, _ => Err TypeError
  end.
(** v[k] = x: the value afterwards (core.py:609) *)
Definition assign (v : pyval) (k : atom) (x : pyval) : result pyval :=
  match v, k with
  | VDict l, _ => Ok (VDict (vset k x l))
  | VList l, KInt z => let* i := of_option IndexError (seq_index (length l) z) in Ok (VList (replace_nth i x l))
  | _, _ => Err TypeError
  end.
(** The value afterwards if the object at k was changed in place into x. (core.py:612) *)
Definition inside (v : pyval) (k : atom) (x : pyval) : pyval :=
  match v, k with
  | VDict l, _ => VDict (vset k x l)
  | VList l, KInt z => match seq_index (length l) z with Some i => VList (replace_nth i x l) | None => v end
  | VTuple l, KInt z => match seq_index (length l) z with Some i => VTuple (replace_nth i x l) | None => v end
  | _, _ => v
  end.
(** _modify_jabmod, core.py:600-615: the jabmod afterwards.  An empty path runs into path[0]. *)
Fixpoint modify_jabmod (this_jabmod : pyval) (path : list atom) (new_value : pyval) : result pyval :=
  match path with
  | [] => Err IndexError
  | [k] => assign this_jabmod k new_value
  | next_key :: rest =>
      let* sub := item this_jabmod next_key in
      let* sub' := modify_jabmod sub rest new_value in
      Ok (inside this_jabmod next_key sub')
  end.
