(** * NameqModel: abiflib/nameq.py *)

From Verif Require Import PyBase Jabmod UrlText.
Local Open Scope Z_scope.
Local Open Scope res_scope.

(** nameq.py:33-44: one line; the stripped line is kept under 'nameq'. *)
Definition nameq_line (line : str) : result voteline :=
  let* prefs := foldM (fun d kv => let* r := match snd kv with
                                             | v0 :: _ => py_int v0
                                             | [] => Err IndexError
                                             end in
                                   Ok (dset (fst kv) (ranked r) d))
                      (parse_qs (strip line)) [] in
  Ok (Voteline 1 prefs None None None (Some (strip line))).

(** convert_nameq_to_jabmod, nameq.py:22-50 *)
Definition convert_nameq_to_jabmod (inputstr : str) : result jabmod :=
  let* lines := mapM nameq_line (splitlines inputstr) in
  let cands := fold_left (fun t v => fold_left (fun t k => dset k k t) (map fst (v_prefs v)) t) lines [] in
  Ok (Jabmod [(u "version", JStr (u "0.1")); (k_ballotcount, JInt (Z.of_nat (length lines)))] cands lines).

(** nameq.py:56-64: one voteline, written once per ballot; nothing is written when qty <= 0. *)
Definition nameq_text (v : voteline) : result str :=
  let* parts := mapM (fun kv => let* pk := quote_plus (fst kv) in
                                let* r := of_option KeyError (p_rank (snd kv)) in
                                Ok (pk ++ [61%N] ++ z2s r)) (v_prefs v) in
  Ok (join [38%N] parts ++ [10%N]).

(** convert_jabmod_to_nameq, nameq.py:53-65.  A voteline with qty <= 0 is not looked at. *)
Definition convert_jabmod_to_nameq (m : jabmod) : result str :=
  let* ts := mapM (fun v => if v_qty v >? 0 then
                              let* t := nameq_text v in Ok (concat (repeat t (Z.to_nat (v_qty v))))
                            else Ok []) (j_votelines m) in
  Ok (concat ts).
