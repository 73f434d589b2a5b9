(** * LimitsModel: the IRV count of irvtally.py:88-232 with Python's floats and its limit on nested calls

    IrvModel compares max_votes with total_votes / 2 exactly and lets the count nest as deep as it wants. Here the quotient is a float (IEEE 754 binary64), and
    only [depth] nested calls of _irv_count_internal are possible (the interpreter's recursion limit less the frames of the callers). *)

From Verif Require Import PyBase Jabmod IrvModel.
Local Open Scope Z_scope.
Local Open Scope res_scope.

(** The integer nearest to n with at most 53 significant binary digits, of two the even one (binary64 rounding, for total_votes / 2 in irvtally.py:216:
    the quotient by two has the same digits) *)
Definition round53 (n : Z) : Z :=
  let a := Z.abs n in
  if a <? 2 ^ 53 then n
  else
    let step := 2 ^ (Z.log2 a - 52) in
    let q := a / step in
    let r := a mod step in
    let up := if 2 * r =? step then Z.odd q else step <? 2 * r in
    Z.sgn n * ((if up then q + 1 else q) * step).
(** max_votes > total_votes / 2, irvtally.py:216: the division gives a float (OverflowError, here GenericException, if there is none that large), the comparison of an int with a
    float is exact *)
Definition float_majority (max_votes total_votes : Z) : result bool :=
  let twice := round53 total_votes in
  if 2 ^ 1025 <=? Z.abs twice then Err GenericException else Ok (2 * max_votes >? twice).

(** _irv_count_internal, irvtally.py:88-232, as IrvModel.irv_count *)
Fixpoint irv_count_limited (depth : nat) (o : oracle) (roundnum : nat) (prevall : option (list str)) (candlist : list str) (votelines : list voteline)
  : result (list str * list (dict Z) * list irvmeta) :=
  match depth with
  | O => Err RecursionError
  | S f =>
      let* ri := irv_round candlist votelines in
      let ed := elim_decision o roundnum ri in
      let alle := all_elim prevall ed in
      let meta elim win :=
        IrvMeta roundnum (zsum (map v_qty votelines)) (ri_exhausted ri) (ri_overvotes ri)
          (ri_ballotcount ri) (ri_total ri - ri_exhausted ri) (ri_min ri) (ri_max ri) (ri_penult ri)
          candlist (ri_min ri) (ri_max ri)
          (ed_bottomtie ed) (ed_batch ed) (ed_random ed) elim alle win in
      if ri_min ri =? ri_max ri then
        let w := max_cands ri in
        Ok (w, [ri_roundcount ri], [meta (set_minus candlist w) (Some w)])
      else
        let* majority := float_majority (ri_max ri) (ri_total ri) in
        if majority then
          let w := max_cands ri in
          Ok (w, [ri_roundcount ri], [meta (set_minus candlist w) (Some w)])
        else
          let nextcands := o_order o roundnum (set_minus candlist (ed_eliminated ed)) in
          let nextvotelines := eliminate_cands (ed_eliminated ed) (ri_pruned ri) in
          let* (w, rounds, metas) := irv_count_limited f o (S roundnum) (Some alle) nextcands nextvotelines in
          Ok (w, ri_roundcount ri :: rounds, meta (ed_eliminated ed) None :: metas)
  end.

(** IRV_dict_from_jabmod, irvtally.py:235-253 *)
Definition IRV_dict_limited (depth : nat) (o : oracle) (m : jabmod) : result irvdict :=
  let canddict := j_candidates m in
  let candlist := dkeys canddict in
  let* (winner, rounds, roundmeta) := irv_count_limited depth o 1 None candlist (j_votelines m) in
  let* winnerstr :=
    if (1 <? length winner)%nat then
      let* names := mapM (fun w => dgetE w canddict) (sort_str winner) in
      Ok (join (u " and ") names)
    else
      let* w := of_option IndexError (nth_error winner 0) in
      dgetE w canddict in
  Ok (IrvDict canddict winner rounds roundmeta winnerstr
        (existsb (fun rm => match im_bottomtie rm with Some _ => true | None => false end) roundmeta)).
