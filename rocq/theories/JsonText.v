(** * JsonText: json.dumps with default arguments (Lib/json/encoder.py, ensure_ascii=True), as used by
    core.py:449 and 672.  Models the standard library, not code of /repo. *)

From Verif Require Import PyBase Jabmod.
Local Open Scope N_scope.

(** A hexadecimal digit, lower case (json.dumps, called in core.py:449 and 672) *)
Definition lower_hex (n : N) : N := if n <? 10 then 48 + n else 87 + n.
(** Four of them *)
Definition hex4 (n : N) : str :=
  [lower_hex (n / 4096 mod 16); lower_hex (n / 256 mod 16); lower_hex (n / 16 mod 16); lower_hex (n mod 16)].

(** One character of a JSON string. *)
Definition json_char (c : N) : str :=
  if c =? 34 then [92; 34]
  else if c =? 92 then [92; 92]
  else if c =? 10 then [92; 110]
  else if c =? 13 then [92; 114]
  else if c =? 9 then [92; 116]
  else if c =? 12 then [92; 102]
  else if c =? 8 then [92; 98]
  else if (32 <=? c) && (c <=? 126) then [c]
  else if c <? 65536 then [92; 117] ++ hex4 c
  else
    let n := c - 65536 in
    [92; 117] ++ hex4 (55296 + n / 1024) ++ [92; 117] ++ hex4 (56320 + n mod 1024).

(** json.dumps of a str, ensure_ascii=True *)
Definition json_str (s : str) : str := [34] ++ flat_map json_char s ++ [34].

(** json.dumps without indent (core.py:449 and 672) *)
Fixpoint json_dumps (j : json) : str :=
  match j with
  | JNull => u "null"
  | JBool true => u "true"
  | JBool false => u "false"
  | JInt z => z2s z
  | JStr s => json_str s
  | JArr l => u "[" ++ join (u ", ") (map json_dumps l) ++ u "]"
  | JObj l => u "{" ++ join (u ", ") (map (fun kv => json_str (fst kv) ++ u ": " ++ json_dumps (snd kv)) l) ++ u "}"
  end.
