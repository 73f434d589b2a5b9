#!/usr/bin/env python3
"""Seeded bugs for the sftxt script (C71), the reports (C72), the JSON results (C73), the pages (C74), the tables (C75) and
the criteria (C66-C69).   usage: mutations5.py OUT.json"""
import json, sys
M = []
def m(id, file, old, new, d, edit, claim):
    M.append(dict(id=id, file=file, old=old, new=new, **{"def": d}, edit=edit, claim=claim))
S="SftxtMainModel.v"; R="ResultsJson.v"; H="HtmlModel.v"; L="CliModel.v"; K="ScoreModel.v"; I="IrvModel.v"; P="PairwiseModel.v"
m("SM1",S,'let* v2 := vote_at 2 votes in\n  urlencode','let* v2 := vote_at 1 votes in\n  urlencode',"url_line","the third choice is never written","C71 urlencoded")
m("SM2",S,'match oget (sv_cand v) outrec with Some _ => outrec | None => oset','match oget (sv_cand v) outrec with Some _ => oset (sv_cand v) (sv_rank v) outrec | None => oset',"keep_first","the last rank of a repeated candidate is kept","C71 urlencoded")
m("SM3",S,'Ok (line :: r) =>' if False else 'Ok (k ++ [61%N] ++ v)','Ok (v ++ [61%N] ++ k)',"urlencode","rank=name instead of name=rank","C71 urlencoded")
m("SM4",S,'match truthy name with Some s => n2s n ++ u ", " ++ s ++ [10%N] | None => [] end ++ csv_header (n + 1) r','match truthy name with Some s => n2s n ++ u ", " ++ s ++ [10%N] ++ csv_header (n + 1) r | None => csv_header n r end',"csv_header","nameless candidates take no number","C71 csv96")
m("SM5",S,'rev_cands (n + 1) r (oset name n t)','rev_cands (n + 1) r (oset name (n + 1) t)',"rev_cands","numbers in the lines one higher than in the header","C71 csv96")
m("SM6",S,'outstr ++ u ">" ++ n2s n','n2s n ++ u ">" ++ outstr',"csv_vote","choices written backwards","C71 csv96")
m("SM7",S,'if str_eqb w vid then [] else [this]','if str_eqb w vid then [this] else []',"yielded","a ballot per line instead of per voter","C71 records")
m("SM8",S,'| [] => ([this], None)\n  | Err e :: _ => ([], Some e)\n  | Ok line :: r =>\n      match ballots_step','| [] => ([], None)\n  | Err e :: _ => ([], Some e)\n  | Ok line :: r =>\n      match ballots_step',"gen_ballots","the last ballot is not yielded","C71 records")
m("SM9",S,'(u "rank", JInt (sv_rank v)); (u "candidate", opt_json (sv_cand v))','(u "rank", JInt (sv_rank v - 1)); (u "candidate", opt_json (sv_cand v))',"vote_json","ranks from 0 in the json records","C71 json")
m("SM10",S,'(u "Pref_Voter_Id", opt_json (sb_voter b)); (u "Serial_Number", opt_json (sb_serial b))','(u "Pref_Voter_Id", opt_json (sb_serial b)); (u "Serial_Number", opt_json (sb_voter b))',"ballot_json","voter and serial number swapped","C71 json")
m("SM11",S,'Some o => SfOutcome (with_file o text fs1) printed e','Some o => SfOutcome fs1 (text ++ printed) e',"sftxt_main","-o is ignored","C71 output file")
m("SM12",S,'if imagelines then gen_rows lines','if negb imagelines then gen_rows lines',"gen_records","--imagelines reversed","C71 imagelines")
m("SM13",S,'| Err e => ([], Some e)\n              | Ok s => let','| Err e => dump line r last\n              | Ok s => let',"dump","records that cannot be written are skipped","C71 IndexError in mid-file")
m("SM14",S,'lookuplines2candpool lookuplines (sa_contestid a)','lookuplines2candpool lookuplines None',"sftxt_main","--contestid ignored","C71 contest")
m("RJ1",R,'(u "exhaustedqty", JInt (im_exhaustedqty rm))','(u "exhaustedqty", JInt (im_overvoteqty rm))',"json_of_irvmeta","wrong figure","C73 rounds")
m("RJ2",R,'match im_winner rm with Some _ => so (im_eliminated rm) | None => im_eliminated rm end','match im_winner rm with Some _ => [] | None => im_eliminated rm end',"json_of_irvmeta","losers of the last round not listed","C73 rounds")
m("RJ3",R,'(u "winner", jstrs (ir_winner d))','(u "winner", jstrs (firstn 1 (ir_winner d)))',"json_of_irv","one of several winners","C73 winner")
m("RJ4",R,'JArr (map (json_of_irvmeta so) (ir_roundmeta d))','JArr (map (json_of_irvmeta so) (tl (ir_roundmeta d)))',"json_of_irv","first round without figures","C73 rounds")
m("RJ5",R,'(u "fin1votes", JInt (st_fin1votes st)); (u "fin2votes", JInt (st_fin2votes st))','(u "fin1votes", JInt (st_fin2votes st)); (u "fin2votes", JInt (st_fin1votes st))',"json_of_star","votes of the finalists swapped","C73 star")
m("RJ6",R,'opt_entry JInt "rank" (si_rank si)','opt_entry JInt "rank" (option_map Z.pred (si_rank si))',"json_of_scoreinfo","ranks from 0","C73 score")
m("RJ7",R,'(u "score", JInt (si_score si)); (u "votercount", JInt (si_votercount si))','(u "score", JInt (si_votercount si)); (u "votercount", JInt (si_score si))',"json_of_scoreinfo","score and voters swapped","C73 score")
m("HT1",H,'if N.eqb c 60 then u "&lt;" else if N.eqb c 62 then u "&gt;" else [c].\nDefinition bs_escape','if N.eqb c 62 then u "&gt;" else [c].\nDefinition bs_escape',"bs_char","< is not escaped","C74 no markup from names")
m("HT2",H,'Definition bs_char (c : N) : str := if N.eqb c 38 then u "&amp;" else if','Definition bs_char (c : N) : str := if',"bs_char","& is not escaped","C74 texts shown as they are")
m("HT3",H,'if json_truthy title then title else','if negb (json_truthy title) then title else',"get_abif_title","test for the title reversed","C74 heading")
m("HT4",H,'or_default (dget (u "description") metadata) default_desc','or_default (dget (u "title") metadata) default_desc',"get_abif_desc","the title as description","C74 heading")
m("HT5",H,'[Text (ce_rk c ++ u ": " ++ z2s (ce_rkscore c))]','[Text (ce_rk c ++ u ": " ++ z2s (ce_ckscore c))]',"cell_node","the wrong votes","C74 contests")
m("HT6",H,'++ map cell_node (hr_cells r)','++ map cell_node (tl (hr_cells r))',"row_node","the first cell is lost","C74 contests")
m("HT7",H,'++ (if snd t then [dagger; Text remark] else [])','++ (if snd t then [] else [dagger; Text remark])',"results_div","the remark where it does not apply","C74 texts")
m("HT8",H,'if snippet then [desc; results_div svg t]','if snippet then [results_div svg t]',"html_page","snippet without description","C74 texts")
m("HT9",H,'Elem "th" [] [Text (hr_label r)]','Elem "th" [("title"%string, hr_label r)] [Text (hr_label r)]',"row_node","the name also in an attribute, unescaped","C74 no markup from names")
m("HT10",H,'(if hr_x then' if False else 'Elem "td" [("colspan"%string, z2s (hr_colspan r)); ("style"%string, u "padding-right: 3em;")] [Text (hr_wlt r)]','Elem "td" [("colspan"%string, z2s (hr_colspan r)); ("style"%string, u "padding-right: 3em;")] []',"row_node","record not shown","C74 record")
m("TT1",H,'if (1 <? count)%nat then newln else ln.','if (0 <? count)%nat then newln else ln.',"bars","lines with one bar changed too","C75")
m("TT2",H,'let (newln, count) := subn_bar 2 ln in','let (newln, count) := subn_bar 3 ln in',"bars","three bars replaced","C75")
m("TT3",H,'of_option IndexError (nth_error tabletextarray 3) in\n  Ok (join [10%N] (map bars (set_nth 3','of_option IndexError (nth_error tabletextarray 2) in\n  Ok (join [10%N] (map bars (set_nth 2',"table_text","third line instead of the fourth","C75")
m("TT4",H,'map (fun c => if N.eqb c 45 then 61%N else c) ln.','map (fun c => if N.eqb c 45 then 61%N else if N.eqb c 43 then 61%N else c) ln.',"equalsigns","plus signs of the rule replaced too","C75")
m("CR1",L,'let* t := texttable_rows m in table_text (r_draw rn 80 t)','let* t := texttable_rows m in Ok (r_draw rn 80 t)',"text_sections","table not retouched","C75 whole run")
m("CR2",L,'Ok (r_soup rn (html_page m false None t))','Ok (r_soup rn (html_page m true None t))',"render","html prints a snippet","C74 whole run: title")
m("CR3",L,'else if has "STAR" mods then let* d := STAR_result m in Ok (dumps_indent 4 (json_of_star d))','else if has "STAR" mods then let* d := STAR_result m in Ok (dumps_indent 4 (json_of_score (st_base d)))',"render","-m STAR prints the score result","C73 whole run")
m("CR4",L,'if str_eqb to (u "irvjson") || has "IRV" mods then','if str_eqb to (u "irvjson") then',"render","-t json -m IRV not recognized","C73 whole run")
m("RP1",K,'u " (from " ++ z2s (si_votercount si) ++ u " voters)"','u " (from " ++ z2s (si_score si) ++ u " voters)"',"score_bullet","score printed as voters","C72 score lines")
m("RP2",K,'u "- " ++ z2s (st_final_abstentions st) ++ u " abstentions"','u "- " ++ tvot ++ u " abstentions"',"STAR_report","voter count as abstentions","C72 STAR lines")
m("RP3",K,'u "- " ++ st_fin2n st ++ u " preferred by "','u "- " ++ st_fin1n st ++ u " preferred by "',"STAR_report","first finalist twice","C72 STAR lines") if False else None
m("RP4",K,'++ u "Score Winner: " ++ si_candname wi ++ nl','++ u "Score Winner: " ++ winnertok ++ nl',"score_report","token instead of name","C72 winner")
m("IC1",I,'let nextcands := o_order o roundnum (set_minus candlist (ed_eliminated ed)) in','let nextcands := o_order o roundnum (removelast (set_minus candlist (ed_eliminated ed))) in',"irv_count","one more candidate dropped","C66 criteria")
m("IC2",I,'else if 2 * ri_max ri >? ri_total ri then','else if 3 * ri_max ri >? ri_total ri then',"irv_count","a third of the votes is enough","C66, C24 criteria")
m("PC1",P,'Definition half_points (w : wlt) : Z := 2 * wins w + ties w.','Definition half_points (w : wlt) : Z := 2 * wins w - ties w.',"half_points","ties subtract","C68 criteria")
m("PC2",P,'Some p => p_rank p\n  | None => Some maxsize','Some p => p_rank p\n  | None => None',"line_rank","an unlisted candidate has no rank","C68 criteria, C01")
json.dump([x for x in M if x], open(sys.argv[1],"w"))
print(len(M))
