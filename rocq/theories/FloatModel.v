(** * FloatModel: scaled_scores with the arithmetic of Python's floats

    ScoreModel computes the scaled scores with exact fractions; here every operation is rounded to the nearest number with 53 significant bits,
    ties to even, as IEEE 754 binary64 does.  Simplification: the exponent is not limited.  C97_range shows that the numbers of a run stay between
    2^-53 and 2^54, where binary64 has neither subnormal numbers nor infinities, so the limit makes no difference. *)

From Coq Require Import QArith Qround.
From Verif Require Import PyBase Jabmod ScoreModel.
Local Open Scope Q_scope.
Local Open Scope res_scope.

(** The exponent e with 2^e <= x < 2^(e+1), for x > 0.  Not in /repo: part of Python's float *)
Definition exponent (x : Q) : Z :=
  let e := (Z.log2 (Qnum x) - Z.log2 (QDen x))%Z in if Qle_bool (2 ^ e) x then e else (e - 1)%Z.
(** The integer nearest to a number, the even one of two.  Not in /repo: part of Python's float *)
Definition half_even (y : Q) : Z :=
  let q := Qfloor y in
  match Qcompare (y - inject_Z q) (1 # 2) with
  | Lt => q
  | Gt => (q + 1)%Z
  | Eq => if Z.even q then q else (q + 1)%Z
  end.
(** The float nearest to a number >= 0.  Not in /repo: part of Python's float *)
Definition fl_pos (x : Q) : Q := let k := (exponent x - 52)%Z in inject_Z (half_even (x / 2 ^ k)) * 2 ^ k.
(** The float nearest to a number.  Not in /repo: part of Python's float *)
Definition fl (x : Q) : Q := match Qnum x with Z0 => 0 | Zpos _ => fl_pos x | Zneg _ => - fl_pos (- x) end.

(** scaled_scores, scorestar.py:129-150, as a computation with floats.  The quotient of two integers (line 135) is rounded once; an integer times a float
    (line 141) rounds the integer first; the total (line 147) starts with the integer 0. *)
Definition scaled_floats (m : jabmod) (target_scale : Z) : result scaledres :=
  let* st := STAR_result m in
  let* _ := dgetE k_ballotcount (j_metadata m) in
  let total := sr_total_all_scores (st_base st) in
  if (total =? 0)%Z then Err ZeroDivisionError
  else
    let scale := fl (inject_Z target_scale / inject_Z total) in
    let* items := mapM (fun kv =>
        let* si := dgetE (fst kv) (sr_scores (st_base st)) in
        Ok (fst kv, ScaledInfo (snd kv) (fl (fl (inject_Z (si_score si)) * scale)) (si_score si)))
      (j_candidates m) in
    Ok (ScaledRes (dget k_max_rating (j_metadata m)) total scale
          (fold_left (fun d kv => dset (fst kv) (snd kv) d) items [])
          (fold_left (fun acc kv => fl (acc + sc_scaled (snd kv))) items 0)).
