(** * StackModel: abiflib/devtools.py:128-140, the names of the calling functions *)

From Verif Require Import PyBase PreflibModel LogModel.
Local Open Scope Z_scope.
Local Open Scope res_scope.

(** l[start:end] of a Python list: negative bounds count from the end, and bounds outside are cut back. (devtools.py:139) *)
Definition slice_bound (n i : Z) : Z := if i <? 0 then Z.max 0 (i + n) else Z.min i n.
(** l[start:end] of a Python list (devtools.py:139) *)
Definition py_slice {A} (l : list A) (start stop : Z) : list A :=
  let n := Z.of_nat (length l) in
  let lo := slice_bound n start in
  let hi := slice_bound n stop in
  firstn (Z.to_nat (hi - lo)) (skipn (Z.to_nat lo) l).

(** abiflib_stackfunc, devtools.py:128-132.  [callers]: the frames that lead to the call, innermost first; inspect.getouterframes puts the
    function's own frame before them. *)
Definition stackfunc_frame : frame := Frame (u "abiflib_stackfunc") (u "devtools.py") 131.
(** abiflib_stackfunc, devtools.py:128-132 *)
Definition abiflib_stackfunc (index : Z) (callers : list frame) : result str :=
  let callstack := stackfunc_frame :: callers in
  let* f := py_index callstack index in
  Ok (fr_function f).

(** abiflib_callstackstr, devtools.py:135-140 *)
Definition callstackstr_frame : frame := Frame (u "abiflib_callstackstr") (u "devtools.py") 138.
(** abiflib_callstackstr, devtools.py:135-140 *)
Definition abiflib_callstackstr (start stop : Z) (callers : list frame) : str :=
  let callstack := callstackstr_frame :: callers in
  join (u " < ") (map fr_function (py_slice callstack start stop)).
