import json,sys
M=[]
def m(id,file,old,new,d,edit,claim): M.append(dict(id=id,file=file,old=old,new=new,edit=edit,claim=claim,**{"def":d}))
P="PairwiseModel.v"
m("P1",P,"if ra <? rb then\n","if ra <=? rb then\n","pair_cell_step","'<' between ranks becomes '<=': equal ranks count for both sides","C01 (matrix cell = votes strictly preferring a to b)")
m("P2",P,"| None => Some maxsize","| None => Some 0","line_rank","unlisted candidate gets rank 0 instead of sys.maxsize","C01/C02: unlisted candidates are below all listed ones")
m("P3",P,"Some (x + qty)","Some (x + 1)","pair_cell_step","adds 1 instead of the line's qty","C01/C03")
m("P4",P,"else Ok m\n       | _, _ => Ok (mat_set a b (Some 0) m)","else Ok m\n       | _, _ => Ok m","pair_cell_step","a missing rank no longer resets the cell to 0","C04 (exact behaviour with missing ranks)")
m("P5",P,"bind (dmodE a inc_wins w) (fun w => dmodE b inc_losses w)","bind (dmodE a inc_losses w) (fun w => dmodE b inc_wins w)","wlt_cell_step","wins and losses swapped","C05")
m("P6",P,"if x >? y then","if x >=? y then","wlt_cell_step","a tied contest counts as a win for both","C05")
m("P7",P,"Definition half_points (w : wlt) : Z := 2 * wins w + ties w.","Definition half_points (w : wlt) : Z := 2 * wins w + 2 * ties w.","half_points","a tie is worth a whole point","C09")
m("P8",P,"filter (fun ns => snd ns =? winning_score) copescores","filter (fun ns => snd ns >=? winning_score - 1) copescores","get_Copeland_winners","winners include candidates half a point behind","Copeland winner set")
m("P9",P,"sort_desc (fun kv => wins (snd kv)) w","w","winlosstie_dict_from_pairdict","result is not sorted by wins","C06 (order of the win-loss-tie table)")
m("P10",P,"if str_eqb a b then None else Some 0","Some 0","pair_init","diagonal starts as 0 instead of None","C01 diagonal (only observable when there are no votelines)")
m("P11",P,"Ok (u \"Copeland Winner: \" ++ name","Ok (u \"Copeland Winner: \" ++ tok","Copeland_report","prints the token instead of the name","C08 report")
S="ScoreModel.v"
m("S1",S,"si_score si + rating * qty","si_score si + rating","score_step","qty dropped","C10")
m("S2",S,"if rating >? 0 then","if rating >=? 0 then","score_step","rating 0 counted as a voter","C10 votercount")
m("S3",S,"if p >? tscore then rank + 1 else rank","rank + 1","rank_loop","tied scores get different ranks","C11")
m("S4",S,"sort_desc (info_score newscores) (dkeys newscores)","dkeys newscores","enhanced_score_result","rank list not sorted","C11/C12")
m("S5",S,"if f1v >? f2v then fin1n\n","if f1v >=? f2v then fin1n\n","STAR_result","tie in the runoff goes to finalist 1","C12")
m("S6",S,"let* c2 := mat_getE fin2 fin1","let* c2 := mat_getE fin1 fin2","STAR_result","fin2votes read from the wrong cell","C12")
m("S7",S,"(bcz - f1v - f2v)","(bcz - f1v)","STAR_result","abstentions forget finalist 2's votes","C13")
m("S8",S,"inject_Z target_scale / inject_Z total","inject_Z total / inject_Z target_scale","scaled_scores","scale factor inverted","C14")
m("S9",S,"RInt (numcands - r)","RInt (numcands - r + 1)","add_rating_pref","rating from rank off by one","C15")
m("S10",S,"else if has then Ok (set_rating (RInt 0) p, false)\n","","add_rating_pref","unrated candidates of a rated file get rank-derived ratings","C15")
I="IrvModel.v"
m("I1",I,"Ok (v_qty l + o, l2 :: k)","Ok (o, l2 :: k)","discard_overvotes","overvote quantity not accumulated","C18 vote accounting")
m("I2",I,"map fst (filter (fun cv => snd cv <=? ri_min ri) (ri_roundcount ri))","map fst (filter (fun cv => snd cv <=? ri_max ri) (ri_roundcount ri))","bottom_cands","compares with max","elimination properties")
m("I3",I,"else if 2 * ri_max ri >? ri_total ri then","else if 2 * ri_max ri >=? ri_total ri then","irv_count","half the votes is enough to win","C20 majority")
m("I4",I,"if bottomvotestot <=? ri_penult ri then","if bottomvotestot <=? ri_max ri then","elim_decision","batch elimination compared with the leader","C22 batch safety")
m("I5",I,"Ok (rc, bc + rqty, ex + rqty)","Ok (rc, bc + rqty, ex)","count_step","exhausted votes not counted","C18")
m("I6",I,"eliminate_cands (ed_eliminated ed) (ri_pruned ri)","eliminate_cands (ed_eliminated ed) votelines","irv_count","next round starts from unpruned votelines","overvotes discarded for good")
m("I7",I,"ElimDec (Some bottomcands) false true [unlucky] (Some [unlucky])","ElimDec (Some bottomcands) false true bottomcands (Some [unlucky])","elim_decision","on a random tie-break all tied candidates go","C21")
m("I8",I,"map fst (filter (fun cv => snd cv =? ri_max ri) (ri_roundcount ri))","firstn 1 (map fst (filter (fun cv => snd cv =? ri_max ri) (ri_roundcount ri)))","max_cands","only the first of the tied winners is reported","C19 ties")
m("I9",I,"map fst (skipn (S y) rlist)","map fst (skipn 1 rlist)","topcand","only the first of an overvoted tier is skipped","C17 (vote goes to the first unshared rank)")
m("I10",I,"set_minus candlist (ed_eliminated ed)) in","set_minus candlist (bottom_cands ri)) in","irv_count","all bottom candidates leave the list even if only one is eliminated","C21")
m("I11",I,"sort_asc snd l","sort_desc snd l","ranked_list","worst rank first","C16/C17")
m("I12",I,"(existsb (fun rm => match im_bottomtie rm with Some _ => true | None => false end) roundmeta)","(1 <? length winner)%nat","IRV_dict_from_jabmod","has_tie means tied winners only","C27 meaning of has_tie")
Q="ParserModel.v"
m("R1",Q,"Ok (set_nextdelim d (set_rank rank p0), rank + 1)","Ok (set_nextdelim d (set_rank (rank + 1) p0), rank + 1)","prefs_loop","rank is incremented before it is used","C33")
m("R2",Q,"JInt (bcz + q)","JInt (bcz + 1)","process_prefline","ballotcount counts lines","C28")
m("R3",Q,"sort_desc v_qty (j_votelines m1)","j_votelines m1","convert_abif_to_jabmod","votelines not sorted","C29")
m("R4",Q,"if dmem x t then t else dset x x t","dset x x t","merge_cands","a vote line overwrites the declared name of a candidate","C29/C63 (names from candidate lines kept)")
m("R5",Q,"      | [] => Err VotelineExn\n      | _ =>\n          let* m1","      | [] => Ok m\n      | _ =>\n          let* m1","convert_abif_to_jabmod","a file with no votelines is accepted","C30")
m("R6",Q,"else if rate =? prevrate then Ok prevrank","else if rate =? prevrate then Ok (prevrank + 1)","assign_ranks","equal ratings get different ranks","C34")
m("R7",Q,"if N.eqb d ch_comma then MRate else MRank","if N.eqb d ch_gt then MRank else MRate","rank_or_rate","'=' as first delimiter means a rating list","C33")
m("R8",Q,"str_eqb mkey k_ballotcount then k_ballotcount_abif","false then k_ballotcount_abif","process_metadata","a {ballotcount: n} line overwrites the counted total","C28/C38")
m("R9",Q,"| Some (g, _) => (group 1 g, Some (group 2 g ++ group 3 g ++ group 4 g))","| Some (g, _) => (line, Some (group 2 g ++ group 3 g ++ group 4 g))","strip_comment","comment text not removed","C31")
m("R10",Q,"[Voteline q prefs linecomment (Some (rstrip prefstr)) voterid]","[Voteline q prefs linecomment (Some (rstrip prefstr)) None]","process_prefline","voter id not stored","C32")
m("R11",Q,"let fullline := if cleanws then lstrip fullline0 else fullline0 in","let fullline := fullline0 in","process_line","cleanws ignored","C35")
m("R12",Q,"dset k (JStr mvalue) (j_metadata m)","(k, JStr mvalue) :: (j_metadata m)","process_metadata","metadata keys may be duplicated","C29 no duplicate keys")
m("R13",Q,"Ok (XState (ret ++ [(qtok, None)]) false inq [] qtok)","Ok (XState (ret ++ [(qtok, None)]) false inq qtok qtok)","xstep","quoted token not cleared between bracketed candidates","C33")
json.dump(M,open(sys.argv[1],"w"),indent=0)
