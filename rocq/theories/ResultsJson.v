(** * ResultsJson: the IRV and STAR results as the objects json.dumps is given (abiftool.py:226-237, irvtally.py:294-295,
    scorestar.py:186-196) *)

From Verif Require Import PyBase Jabmod PairwiseModel ScoreModel IrvModel JabmodJson.
Local Open Scope Z_scope.

(** A list of strs as JSON (abiftool.py:224-238) *)
Definition jstrs (l : list str) : json := JArr (map JStr l).

(** One entry of roundmeta after clean_dict (core.py:623-637), with the keys in the order in which irvtally.py:107-222
    assigns them.  [so] is the order in which Python walks a set: 'all_eliminated' is always one, 'eliminated' in the last
    round (irvtally.py:217, 223). *)
Definition json_of_irvmeta (so : list str -> list str) (rm : irvmeta) : json :=
  JObj ([(u "roundnum", JInt (Z.of_nat (im_roundnum rm))); (u "startingqty", JInt (im_startingqty rm)); (u "exhaustedqty", JInt (im_exhaustedqty rm));
         (u "overvoteqty", JInt (im_overvoteqty rm)); (u "ballotcount", JInt (im_ballotcount rm)); (u "countedqty", JInt (im_countedqty rm));
         (u "bottom_votes_percand", JInt (im_bottom_votes_percand rm)); (u "leading_votes_percand", JInt (im_leading_votes_percand rm));
         (u "penultimate_votes_percand", JInt (im_penultimate_votes_percand rm)); (u "starting_cands", jstrs (im_starting_cands rm));
         (u "top_voteqty", JInt (im_top_voteqty rm)); (u "bottom_voteqty", JInt (im_bottom_voteqty rm))]
        ++ match im_bottomtie rm with Some l => [(u "bottomtie", jstrs l); (u "tiecandlist", jstrs l)] | None => [] end
        ++ (if im_batch_elim rm then [(u "batch_elim", JBool true)] else [])
        ++ (if im_random_elim rm then [(u "random_elim", JBool true)] else [])
        ++ [(u "eliminated", jstrs (match im_winner rm with Some _ => so (im_eliminated rm) | None => im_eliminated rm end));
            (u "all_eliminated", jstrs (so (im_all_eliminated rm)))]
        ++ opt_entry jstrs "winner" (im_winner rm)).

(** clean_dict(IRV_dict), keys in the order of irvtally.py:236-252 *)
Definition json_of_irv (so : list str -> list str) (d : irvdict) : json :=
  JObj [(u "canddict", JObj (map (fun kv => (fst kv, JStr (snd kv))) (ir_canddict d)));
        (u "winner", jstrs (ir_winner d));
        (u "rounds", JArr (map (fun rc => JObj (map (fun kv => (fst kv, JInt (snd kv))) rc)) (ir_rounds d)));
        (u "roundmeta", JArr (map (json_of_irvmeta so) (ir_roundmeta d)));
        (u "winnerstr", JStr (ir_winnerstr d));
        (u "has_tie", JBool (ir_has_tie d))].

(** The result of enhanced_score_result_from_abifmodel, keys in the order of scorestar.py:29-34 and 47-67 *)
Definition json_of_scoreinfo (si : scoreinfo) : json :=
  JObj ([(u "candname", JStr (si_candname si)); (u "score", JInt (si_score si)); (u "votercount", JInt (si_votercount si))] ++ opt_entry JInt "rank" (si_rank si)).
(** scorestar.py:29-34 and 47-67: the entries *)
Definition score_entries (sr : scoreres) : list (str * json) :=
  [(u "scores", JObj (map (fun kv => (fst kv, json_of_scoreinfo (snd kv))) (sr_scores sr))); (u "ranklist", jstrs (sr_ranklist sr));
   (u "total_all_scores", JInt (sr_total_all_scores sr)); (u "totalvoters", sr_totalvoters sr)].
(** enhanced_score_result_from_abifmodel's result, scorestar.py:45-68 *)
Definition json_of_score (sr : scoreres) : json := JObj (score_entries sr).
(** The result of STAR_result_from_abifmodel, keys in the order of scorestar.py:72-91 *)
Definition json_of_star (st : starres) : json :=
  JObj (score_entries (st_base st) ++
        [(u "round1winners", jstrs (st_round1winners st)); (u "fin1", JStr (st_fin1 st)); (u "fin2", JStr (st_fin2 st));
         (u "fin1n", JStr (st_fin1n st)); (u "fin2n", JStr (st_fin2n st)); (u "fin1votes", JInt (st_fin1votes st)); (u "fin2votes", JInt (st_fin2votes st));
         (u "final_abstentions", JInt (st_final_abstentions st)); (u "winner", JStr (st_winner st))]).
