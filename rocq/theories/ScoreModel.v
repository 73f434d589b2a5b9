(** * ScoreModel: abiflib/scorestar.py and _add_ratings_to_jabmod_votelines of core.py *)

From Coq Require Export QArith.
From Verif Require Import PyBase Jabmod PairwiseModel.
Local Open Scope Z_scope.
Local Open Scope res_scope.

(** The per-candidate dict of a score result: keys candname, score, votercount and (once assigned) rank. (scorestar.py:28-42 and 63) *)
Record scoreinfo := ScoreInfo {
  si_candname : str;
  si_score : Z;
  si_votercount : Z;
  si_rank : option Z
}.

(** int(candval.get('rating', 0)), scorestar.py:38, core.py:220, 227 *)
Definition pref_rating_int (p : pref) : result Z :=
  match p_rating p with Some r => rating_int r | None => Ok 0 end.

(** scorestar.py:37-41, one candidate of one voteline *)
Definition score_step (qty : Z) (acc : dict scoreinfo) (cp : str * pref) : result (dict scoreinfo) :=
  let* rating := pref_rating_int (snd cp) in
  dmodE (fst cp)
    (fun si => ScoreInfo (si_candname si) (si_score si + rating * qty)
                 (if rating >? 0 then si_votercount si + qty else si_votercount si) (si_rank si))
    acc.

(** basic_score_result_from_abifmodel, scorestar.py:28-42 *)
Definition basic_score_result (m : jabmod) : result (dict scoreinfo) :=
  let init := fold_left (fun d kv => dset (fst kv) (ScoreInfo (snd kv) 0 0 None) d) (j_candidates m) [] in
  foldM (fun acc l => foldM (score_step (v_qty l)) (v_prefs l) acc) (j_votelines m) init.

(** scorestar.py:54-64: the ranks; [prev] is pscore ([None] = math.inf). *)
Fixpoint rank_loop (prev : option Z) (rank : Z) (ranklist : list str) (d : dict scoreinfo)
  : result (dict scoreinfo) :=
  match ranklist with
  | [] => Ok d
  | c :: r =>
      let* si := dgetE c d in
      let tscore := si_score si in
      let rank' := match prev with
                   | None => rank + 1
                   | Some p => if p >? tscore then rank + 1 else rank
                   end in
      rank_loop (Some tscore) rank' r
        (dset c (ScoreInfo (si_candname si) (si_score si) (si_votercount si) (Some rank')) d)
  end.

(** The dict enhanced_score_result_from_abifmodel returns, scorestar.py:45-68 *)
Record scoreres := ScoreRes {
  sr_scores : dict scoreinfo;
  sr_ranklist : list str;
  sr_total_all_scores : Z;
  sr_totalvoters : json
}.

(** scores[c]['score'], scorestar.py:45-68 *)
Definition info_score (d : dict scoreinfo) (c : str) : Z :=
  match dget c d with Some si => si_score si | None => 0 end.

(** enhanced_score_result_from_abifmodel, scorestar.py:45-68 *)
Definition enhanced_score_result (m : jabmod) : result scoreres :=
  let* newscores := basic_score_result m in
  let ranklist := sort_desc (info_score newscores) (dkeys newscores) in
  let* scores := rank_loop None 0 ranklist newscores in
  let* bc := dgetE k_ballotcount (j_metadata m) in
  Ok (ScoreRes scores ranklist (zsum (map (fun kv => si_score (snd kv)) scores)) bc).

(** The dict STAR_result_from_abifmodel returns, scorestar.py:71-91 *)
Record starres := StarRes {
  st_base : scoreres;
  st_round1winners : list str;
  st_fin1 : str; st_fin2 : str;
  st_fin1n : str; st_fin2n : str;
  st_fin1votes : Z; st_fin2votes : Z;
  st_final_abstentions : Z;
  st_winner : str
}.

(** bc - x for a JSON value: simplification, only integers support arithmetic. (scorestar.py:84) *)
Definition json_intE (j : json) : result Z :=
  match j with JInt z => Ok z | _ => Err TypeError end.

(** A matrix cell used as a number. (scorestar.py:82-87) *)
Definition cellE (c : option Z) : result Z := of_option TypeError c.

(** STAR_result_from_abifmodel, scorestar.py:71-91 *)
Definition STAR_result (m : jabmod) : result starres :=
  let* sr := enhanced_score_result m in
  let bc := sr_totalvoters sr in
  let round1winners := firstn 2 (sr_ranklist sr) in
  let* cc := full_copecount m in
  let* fin1 := of_option IndexError (nth_error (sr_ranklist sr) 0) in
  let* fin2 := of_option IndexError (nth_error (sr_ranklist sr) 1) in
  let* i1 := dgetE fin1 (sr_scores sr) in
  let* i2 := dgetE fin2 (sr_scores sr) in
  let fin1n := si_candname i1 in
  let fin2n := si_candname i2 in
  let* c1 := mat_getE fin1 fin2 (cc_winningvotes cc) in
  let* c2 := mat_getE fin2 fin1 (cc_winningvotes cc) in
  let* bcz := json_intE bc in
  let* f1v := cellE c1 in
  let* f2v := cellE c2 in
  Ok (StarRes sr round1winners fin1 fin2 fin1n fin2n f1v f2v (bcz - f1v - f2v)
        (if f1v >? f2v then fin1n
         else if f2v >? f1v then fin2n
         else u "tie " ++ fin1n ++ u " and " ++ fin2n)).

(** f"{x}" of a metadata value; simplification: lists and objects are rendered as empty. (scorestar.py:104, 114, 122-123) *)
Definition json_fstr (j : json) : str :=
  match j with
  | JNull => u "None"
  | JBool true => u "True"
  | JBool false => u "False"
  | JInt z => z2s z
  | JStr s => s
  | JArr _ | JObj _ => []
  end.

(** A line feed, as in the reports of scorestar.py:94-126 *)
Definition nl : str := [10%N].

(** one bullet of scorestar.py:99-102 / 116-119; [unit] is " points" or " stars". *)
Definition score_bullet (unit : str) (si : scoreinfo) : str :=
  u "- " ++ z2s (si_score si) ++ unit ++ u " (from " ++ z2s (si_votercount si) ++ u " voters)"
  ++ u " -- " ++ si_candname si ++ nl.

(** score_report, scorestar.py:94-107 *)
Definition score_report (m : jabmod) : result str :=
  let* totalvoters := dgetE k_ballotcount (j_metadata m) in
  let* sr := enhanced_score_result m in
  let* bullets := mapM (fun c => let* si := dgetE c (sr_scores sr) in Ok (score_bullet (u " points") si))
                       (sr_ranklist sr) in
  let* winnertok := of_option IndexError (nth_error (sr_ranklist sr) 0) in
  let* wi := dgetE winnertok (sr_scores sr) in
  Ok (concat bullets ++ u "Voter count: " ++ json_fstr totalvoters ++ nl
      ++ u "Score Winner: " ++ si_candname wi ++ nl).

(** STAR_report, scorestar.py:110-126 *)
Definition STAR_report (m : jabmod) : result str :=
  let* st := STAR_result m in
  let sr := st_base st in
  let tvot := json_fstr (sr_totalvoters sr) in
  let* bullets := mapM (fun c => let* si := dgetE c (sr_scores sr) in Ok (score_bullet (u " stars") si))
                       (sr_ranklist sr) in
  Ok (u "Total voters: " ++ tvot ++ nl ++ u "Scores:" ++ nl ++ concat bullets
      ++ u "Finalists: " ++ nl
      ++ u "- " ++ st_fin1n st ++ u " preferred by " ++ z2s (st_fin1votes st) ++ u " of " ++ tvot ++ u " voters" ++ nl
      ++ u "- " ++ st_fin2n st ++ u " preferred by " ++ z2s (st_fin2votes st) ++ u " of " ++ tvot ++ u " voters" ++ nl
      ++ u "- " ++ z2s (st_final_abstentions st) ++ u " abstentions" ++ nl
      ++ u "STAR Winner: " ++ st_winner st ++ nl).

(** One entry of scaled_scores, scorestar.py:129-150 *)
Record scaledinfo := ScaledInfo { sc_candname : str; sc_scaled : Q; sc_score : Z }.
(** The dict scaled_scores returns, scorestar.py:129-150; floats are exact rationals (simplification) *)
Record scaledres := ScaledRes {
  sc_max_rating : option json;
  sc_total_all_scores : Z;
  sc_scale_factor : Q;
  sc_canddict : dict scaledinfo;
  sc_scaled_total : Q
}.

(** The key of scorestar.py:133 *)
Definition k_max_rating : str := u "max_rating".

(** scaled_scores, scorestar.py:129-150.  Simplification: exact rationals instead of floats. *)
Definition scaled_scores (m : jabmod) (target_scale : Z) : result scaledres :=
  let* st := STAR_result m in
  let* _ := dgetE k_ballotcount (j_metadata m) in
  let total := sr_total_all_scores (st_base st) in
  if total =? 0 then Err ZeroDivisionError
  else
    let scale := (inject_Z target_scale / inject_Z total)%Q in
    let* items := mapM (fun kv =>
        let* si := dgetE (fst kv) (sr_scores (st_base st)) in
        Ok (fst kv, ScaledInfo (snd kv) (inject_Z (si_score si) * scale)%Q (si_score si)))
      (j_candidates m) in
    Ok (ScaledRes (dget k_max_rating (j_metadata m)) total scale
          (fold_left (fun d kv => dset (fst kv) (snd kv) d) items [])
          (fold_left (fun acc kv => acc + sc_scaled (snd kv))%Q items 0%Q)).

(** abifmodel_has_ratings, scorestar.py:153-161 *)
Definition abifmodel_has_ratings (m : jabmod) : result bool :=
  let* l := of_option IndexError (nth_error (j_votelines m) 0) in
  let* p := of_option IndexError (nth_error (dvals (v_prefs l)) 0) in
  Ok (match p_rating p with Some r => rating_truthy r | None => false end).

(** The key of core.py:270 *)
Definition k_is_ranking_to_rating : str := u "is_ranking_to_rating".

(** core.py:250-254 *)
Definition inmod_has_rating (m : jabmod) : bool :=
  existsb (fun l => existsb (fun kv => match p_rating (snd kv) with Some _ => true | None => false end)
                            (v_prefs l)) (j_votelines m).

(** core.py:265-270, one candidate entry; the flag says whether is_ranking_to_rating was set. *)
Definition add_rating_pref (has add_ratings : bool) (numcands : Z) (p : pref) : result (pref * bool) :=
  if match p_rating p with Some r => rating_truthy r | None => false end then Ok (p, false)
  else if has then Ok (set_rating (RInt 0) p, false)
  else if add_ratings then
    match p_rank p with
    | Some r => Ok (set_rating (RInt (numcands - r)) p, true)
    | None => Err KeyError
    end
  else Ok (p, false).

(** _add_ratings_to_jabmod_votelines, core.py:243-271 *)
Definition add_ratings_to_votelines (m : jabmod) (add_ratings : bool) : result jabmod :=
  let has := inmod_has_rating m in
  let numcands := Z.of_nat (length (j_candidates m)) in
  let* out := mapM (fun l =>
      let* ps := mapM (fun kv => let* r := add_rating_pref has add_ratings numcands (snd kv) in
                                 Ok (fst kv, r)) (v_prefs l) in
      Ok (with_prefs l (map (fun kr => (fst kr, fst (snd kr))) ps),
          existsb (fun kr => snd (snd kr)) ps))
    (j_votelines m) in
  Ok (Jabmod (if existsb snd out then dset k_is_ranking_to_rating (JBool true) (j_metadata m)
              else j_metadata m)
             (j_candidates m) (map fst out)).
