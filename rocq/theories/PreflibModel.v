(** * PreflibModel: abiflib/preflib.py *)

From Verif Require Import PyBase Regex.
Local Open Scope Z_scope.
Local Open Scope res_scope.

(** preflib.py:21, with re.search anchored by ^ (lines hold no newline).  Groups: 1 number, 2 name. *)
Definition ALTNAME_REGEX : regex := RSeqs
  [ RWord (u "# ALTERNATIVE NAME "); RGrp 1 (RPlus is_digit); RWord (u ": "); RGrp 2 (RStar any_char); REnd ].

(** preflib.py:37.  Groups: 1 quantity, 2 rankpart. *)
Definition RANKING_REGEX : regex := RSeqs
  [ RGrp 1 (RPlus is_digit); RWord (u ": "); RGrp 2 (RStar any_char) ].

(** _extract_alt_names_from_preflib_str, preflib.py:17-26: the number is matched but not used. *)
Definition alt_names (preflib_str : str) : list str :=
  flat_map (fun line => match re_match ALTNAME_REGEX line with
                        | Some (g, _) => [group 2 g]
                        | None => []
                        end) (splitlines preflib_str).

(** re.split(r'({[^}]*}|,)', rankpart), preflib.py:46: the pieces between the separators and, because of
    the capturing group, the separators themselves.  A '{' begins a separator only if a '}' follows. *)
Fixpoint split_parts (inside : bool) (cur s : str) : list str :=
  match s with
  | [] => [rev cur]
  | c :: r =>
      if inside then
        if N.eqb c 125 then rev (c :: cur) :: split_parts false [] r
        else split_parts true (c :: cur) r
      else if N.eqb c 123 && existsb (N.eqb 125) r then rev cur :: split_parts true [c] r
      else if N.eqb c 44 then rev cur :: [c] :: split_parts false [] r
      else split_parts false (c :: cur) r
  end.

(** re.finditer(r'(\d+)', part), preflib.py:51: the maximal runs of digits. *)
Definition push_run (cur : str) (l : list str) : list str := match cur with [] => l | _ => rev cur :: l end.
(** re.finditer(r'(\d+)', part), preflib.py:51 *)
Fixpoint digit_runs (cur s : str) : list str :=
  match s with
  | [] => push_run cur []
  | c :: r => if is_digit c then digit_runs (c :: cur) r else push_run cur (digit_runs [] r)
  end.

(** l[i] for a Python list: negative indexes count from the end, IndexError outside. (preflib.py:53) *)
Definition py_index {A} (l : list A) (i : Z) : result A :=
  let j := if i <? 0 then i + Z.of_nat (length l) else i in
  if j <? 0 then Err IndexError else of_option IndexError (nth_error l (Z.to_nat j)).

(** preflib.py:47-48: parts that are skipped. *)
Definition skipped_part (part : str) : bool :=
  match part with [] => true | _ => str_eqb part [44%N] || forallb is_space part end.

(** preflib.py:49-54 *)
Definition part_tier (shortnames : list str) (part : str) : result str :=
  let* toks := mapM (fun n => let* z := py_int n in py_index shortnames (z - 1)) (digit_runs [] part) in
  Ok (join [61%N] toks).

(** preflib.py:40-60 for one line: the text appended. *)
Definition ranking_line (shortnames : list str) (line : str) : result str :=
  match re_match RANKING_REGEX line with
  | Some (g, _) =>
      let parts := filter (fun p => negb (skipped_part p)) (split_parts false [] (group 2 g)) in
      let* tierarray := mapM (part_tier shortnames) parts in
      Ok (group 1 g ++ [58%N] ++ join [62%N] tierarray ++ [10%N])
  | None => Ok []
  end.

(** _extract_rankings_from_preflib_str, preflib.py:28-62 *)
Definition rankings (preflib_str : str) (shortnames : list str) : result str :=
  let* ls := mapM (ranking_line shortnames) (splitlines preflib_str) in Ok (concat ls).

(** preflib.py:69: re.sub(' ', '', o) *)
Definition drop_spaces (s : str) : str := filter (fun c => negb (N.eqb c 32)) s.

(** convert_preflib_str_to_abif, preflib.py:64-80 *)
Definition convert_preflib_str_to_abif (preflib_str : str) : result str :=
  let names := alt_names preflib_str in
  let shortnames := map drop_spaces names in
  let* rk := rankings preflib_str shortnames in
  Ok (concat (map (fun on => u "=" ++ fst on ++ u ":[" ++ snd on ++ u "]" ++ [10%N]) (combine shortnames names))
      ++ u "# ---------------" ++ [10%N] ++ rk).
