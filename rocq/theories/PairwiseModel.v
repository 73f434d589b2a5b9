(** * PairwiseModel: abiflib/pairwise.py *)

From Verif Require Import PyBase Jabmod.
Local Open Scope Z_scope.

(** sys.maxsize on 64-bit CPython (pairwise.py:49). *)
Definition maxsize : Z := 9223372036854775807.

(** A pairwise matrix: dict of dicts of (int or None). (pairwise.py:28-70) *)
Definition pairmat := dict (dict (option Z)).

(** retval[a][b] = v, both keys present (pairwise.py:41-43, 64, 67, 69). *)
Definition mat_set (a b : str) (v : option Z) (m : pairmat) : pairmat :=
  match dget a m with
  | Some row => dset a (dset b v row) m
  | None => m
  end.

(** retval[a][b] (pairwise.py:28-70) *)
Definition mat_get (a b : str) (m : pairmat) : option (option Z) :=
  match dget a m with
  | Some row => dget b row
  | None => None
  end.

(** pairwise.py:36-43: the initial matrix. *)
Definition pair_init (candtoks : list str) : pairmat :=
  fold_left (fun m a =>
    dset a (fold_left (fun row b => dset b (if str_eqb a b then None else Some 0) row) candtoks []) m)
    candtoks [].

(** pairwise.py:52-59: the rank of a token on a line: its 'rank' entry if listed (possibly None),
    sys.maxsize if not listed. *)
Definition line_rank (lineprefs : dict pref) (tok : str) : option Z :=
  match dget tok lineprefs with
  | Some p => p_rank p
  | None => Some maxsize
  end.

(** pairwise.py:63-69: what one voteline does to cell [a][b].  "+=" on a None cell is a TypeError in
    Python; off the diagonal cells are never None. *)
Definition pair_cell_step (qty : Z) (lineprefs : dict pref) (a b : str) (m : pairmat) : result pairmat :=
  if str_eqb a b then Ok (mat_set a b None m)
  else match line_rank lineprefs a, line_rank lineprefs b with
       | Some ra, Some rb =>
           if ra <? rb then
             match mat_get a b m with
             | Some (Some x) => Ok (mat_set a b (Some (x + qty)) m)
             | Some None => Err TypeError
             | None => Err KeyError
             end
           else Ok m
       | _, _ => Ok (mat_set a b (Some 0) m)
       end.

(** pairwise.py:46-69: one voteline, all ordered pairs. *)
Definition pair_line_step (candtoks : list str) (m : pairmat) (line : voteline) : result pairmat :=
  foldM (fun m a =>
           foldM (fun m b => pair_cell_step (v_qty line) (v_prefs line) a b m) candtoks m)
        candtoks m.

(** pairwise_count_dict, pairwise.py:28-70 *)
Definition pairwise_count_dict (abifmodel : jabmod) : result pairmat :=
  let candtoks := dkeys (j_candidates abifmodel) in
  foldM (pair_line_step candtoks) (j_votelines abifmodel) (pair_init candtoks).

(** The dict of wins, losses and ties of a candidate, pairwise.py:77-79 *)
Record wlt := Wlt { wins : Z; losses : Z; ties : Z }.
(** pairwise.py:77-79: its first value *)
Definition wlt0 := Wlt 0 0 0.
(** pairwise.py:87-93: one more win *)
Definition inc_wins (w : wlt) := Wlt (wins w + 1) (losses w) (ties w).
(** pairwise.py:87-93: one more loss *)
Definition inc_losses (w : wlt) := Wlt (wins w) (losses w + 1) (ties w).
(** pairwise.py:87-93: one more tie *)
Definition inc_ties (w : wlt) := Wlt (wins w) (losses w) (ties w + 1).

(** pairdict[a][b] with KeyError (pairwise.py:82-83) *)
Definition mat_getE (a b : str) (m : pairmat) : result (option Z) :=
  bind (dgetE a m) (fun row => dgetE b row).

(** pairwise.py:80-97: one ordered pair.  Comparing None with an int is a TypeError. *)
Definition wlt_cell_step (pairdict : pairmat) (a b : str) (w : dict wlt) : result (dict wlt) :=
  bind (mat_getE a b pairdict) (fun a2b =>
  bind (mat_getE b a pairdict) (fun b2a =>
  if str_eqb a b then Ok w
  else match a2b, b2a with
       | Some x, Some y =>
           if x >? y then
             bind (dmodE a inc_wins w) (fun w => dmodE b inc_losses w)
           else if x =? y then
             bind (dmodE a inc_ties w) (fun w => dmodE b inc_ties w)
           else Ok w
       | _, _ => Err TypeError
       end)).

(** winlosstie_dict_from_pairdict, pairwise.py:73-103: counts, then sorts by wins, descending. *)
Definition winlosstie_dict_from_pairdict (candidates : dict str) (pairdict : pairmat)
  : result (dict wlt) :=
  let candtoks := dkeys candidates in
  let init := fold_left (fun w a => dset a wlt0 w) candtoks [] in
  bind (foldM (fun w a => foldM (fun w b => wlt_cell_step pairdict a b w) candtoks w) candtoks init)
       (fun w => Ok (sort_desc (fun kv => wins (snd kv)) w)).

(** The dict full_copecount_from_abifmodel returns, pairwise.py:106-113 *)
Record copecount := Copecount {
  cc_winningvotes : pairmat;
  cc_winlosstie : dict wlt
}.

(** full_copecount_from_abifmodel, pairwise.py:106-113 *)
Definition full_copecount (abifmodel : jabmod) : result copecount :=
  bind (pairwise_count_dict abifmodel) (fun wv =>
  bind (winlosstie_dict_from_pairdict (j_candidates abifmodel) wv) (fun wlt =>
  Ok (Copecount wv wlt))).

(** calc_Copeland_scores, pairwise.py:116-124.  Points are multiples of 0.5; the model keeps twice
    the points as an exact integer (exact in IEEE doubles below 2^52). *)
Definition half_points (w : wlt) : Z := 2 * wins w + ties w.
(** calc_Copeland_scores, pairwise.py:116-124 *)
Definition calc_Copeland_scores (cc : copecount) : list (str * Z) :=
  sort_desc snd (map (fun kv => (fst kv, half_points (snd kv))) (cc_winlosstie cc)).

(** max(...) over a non-empty iterable; ValueError on an empty one. (pairwise.py:130, irvtally.py:134) *)
Definition py_max (l : list Z) : result Z :=
  match l with
  | [] => Err ValueError
  | x :: r => Ok (fold_left Z.max r x)
  end.
(** min(...) over a non-empty iterable; ValueError on an empty one (used in irvtally.py:133-139). *)
Definition py_min (l : list Z) : result Z :=
  match l with
  | [] => Err ValueError
  | x :: r => Ok (fold_left Z.min r x)
  end.

(** get_Copeland_winners, pairwise.py:127-131 *)
Definition get_Copeland_winners (cc : copecount) : result (list str) :=
  let copescores := calc_Copeland_scores cc in
  bind (py_max (map snd copescores)) (fun winning_score =>
  Ok (map fst (filter (fun ns => snd ns =? winning_score) copescores))).

(** f"{points}" for a float that is a multiple of 0.5: "3.0", "2.5". (pairwise.py:139) *)
Definition halves_str (h : Z) : str :=
  z2s (h / 2) ++ (if Z.even h then u ".0" else u ".5").

(** Copeland_report, pairwise.py:134-140: copescores[0] is an IndexError on no candidates. *)
Definition Copeland_report (canddict : dict str) (cc : copecount) : result str :=
  match calc_Copeland_scores cc with
  | [] => Err IndexError
  | (tok, sc) :: _ =>
      bind (dgetE tok canddict) (fun name =>
      Ok (u "Copeland Winner: " ++ name ++ u " (score: " ++ halves_str sc ++ u ")" ++ [10%N]))
  end.
