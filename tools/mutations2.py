#!/usr/bin/env python3
"""Seeded bugs for the writer, nameq, csv, consolidation.  usage: mutations2.py OUT.json"""
import json, sys
M = []
def m(id, file, old, new, d, edit, claim):
    M.append(dict(id=id, file=file, old=old, new=new, **{"def": d}, edit=edit, claim=claim))
N="NameqModel.v"; W="WriterModel.v"
m("N1",N,"strip line","line","nameq_line","the line is not stripped","equivalent for clean lines; C42/C43 if white space matters")
m("N2",N,"| v0 :: _ => py_int v0","| v0 :: _ => Ok (Z.of_nat (length v0))","nameq_line","rank is the length of the text, not its value","C42 same ranks")
m("N3",N,"JInt (Z.of_nat (length lines))","JInt (Z.of_nat (length cands))","convert_nameq_to_jabmod","ballotcount counts candidates","C43")
m("N4",N,"dset k k t) (map fst (v_prefs v)) t) lines []","dset k k t) (map fst (v_prefs v)) t) (tl lines) []","convert_nameq_to_jabmod","the first ballot's candidates are not entered","C43 all candidates in the table")
m("N5",N,"repeat t (Z.to_nat (v_qty v))","repeat t 1","convert_jabmod_to_nameq","one line per voteline instead of per ballot","C42")
m("N6",N,"Ok (pk ++ [61%N] ++ z2s r)","Ok (fst kv ++ [61%N] ++ z2s r)","nameq_text","names not percent-encoded","C42 any names")
m("N7",N,"if v_qty v >? 0 then","if v_qty v >? 1 then","convert_jabmod_to_nameq","votelines of qty 1 are dropped","C42")
m("N8",N,"Ok (vl 1 prefs)","Ok (vl 0 prefs)","nameq_line","qty 0","C43 each of qty 1")
m("U1","UrlText.v","[192 + c / 64; 128 + c mod 64]","[192 + c / 64; 128 + c mod 32]","utf8_char","wrong mask in two-byte sequences","C42 (Unicode names)")
m("U2","UrlText.v","(c =? 46) || (c =? 45)","(c =? 46) || (c =? 43) || (c =? 45)","always_safe","plus sign left unquoted","C42; C39 tokens")
m("U3","UrlText.v","if c =? 43 then 32 else c","c","plus_to_space","plus signs not turned into spaces","C42 names with spaces")
m("W1",W,"if r1 <? r2 then","if r1 <=? r2 then","prefstr_from_ranked","equal ranks written with >","C39 order")
m("W2",W,"Ok (join [61%N] qs)","Ok (join [44%N] qs)","tier_text","tiers joined by comma","C39 (equal tiers)")
m("W3",W,"let* ts := mapM tier_text tiers in\n  Ok (join [62%N] ts)","let* ts := mapM tier_text tiers in\n  Ok (join [61%N] ts)","prefstr_from_ratings","tiers joined by =","C39 order")
m("W4",W,"(str_eqb q tok) then tok else [91%N]","(str_eqb q tok) then tok else [34%N]","abif_token_quote","n/a","n/a") if False else None
m("W5",W,"Ok (if str_eqb q tok then tok else [91%N] ++ tok ++ [93%N])","Ok tok","abif_token_quote","never brackets","C39 tokens with spaces")
m("W6",W,"| Err TypeError => let* l := sort_by_rank prefs","| Err TypeError => let* l := Ok prefs","prefs_text","ranked lines not sorted","C39")
m("W7",W,"else fst y <? fst x.","else fst x <? fst y.","rated_leb","ratings written lowest first","C39")
m("W8",W,"Some r => 47%N :: rating_str r","Some r => []","rating_suffix","ratings not written","C39_ratings")
m("W9",W,"Ok (z2s (v_qty v) ++ [58%N] ++ t ++ [10%N])","Ok (z2s 1 ++ [58%N] ++ t ++ [10%N])","votelinestr","quantity always 1","C39")
m("W10",W,"Ok (u \"=\" ++ q ++ u \":[\" ++ snd tn ++ u \"]\" ++ [10%N])","Ok (u \"=\" ++ q ++ u \":[\" ++ fst tn ++ u \"]\" ++ [10%N])","cand_text","token written as name","C39 table")
m("W11",W,"u \"{\" ++ fst fv ++ u \": \" ++ json_dumps (snd fv)","u \"{\" ++ fst fv ++ u \": \" ++ json_dumps (JStr (fst fv))","meta_text","key written as value","C39_metadata")
m("W12",W,"Ok (map snd (sort_desc fst l))","Ok (map snd (sort_asc fst l))","ranklist","ratings ascending","C41")
m("W13",W,"let* l := sort_by_rank (v_prefs v) in Ok (map fst l)","Ok (map fst (v_prefs v))","ranklist","ranks ignored","C41")
m("W14",W,"Ok (map snd (sort_asc fst l)).","Ok (map snd (sort_desc fst l)).","sort_by_rank","rank order reversed","C39, C41")
m("K1",W,"(match p_rank p with Some r => [(u \"rank\", JInt r)] | None => [] end)","(match p_rank p with Some r => [] | None => [] end)","pref_json","the key ignores ranks","C44 (different preferences merged)")
m("K2",W,"(v_qty w + v_qty v)","(v_qty w + 1)","consolidate_step","adds 1","C44 totals")
m("K3",W,"(sort_by (fun a b => str_leb (fst a) (fst b)) prefs)","prefs","prefs_key","keys not sorted: order of candidates matters","C44 identical preferences merged")
m("K4",W,"else dset k (vl 0 (v_prefs v)) d","else dset k (vl (v_qty v) (v_prefs v)) d","consolidate_step","first quantity counted twice","C44")
m("K5",W,"if N.eqb c 34 then [34%N; 34%N] else [c]","[c]","csv_quote","quotes not doubled","C45 (csv decodes)")
m("K6",W,"N.eqb c 44 || N.eqb c 34","N.eqb c 34","csv_special","commas not quoted","C45")
m("K7",W,"repeat 48%N (6 - length s) ++ s","s","pad6","numbers not padded","C45 voter ids")
m("K8",W,"let* r := csv_ballot fieldnames (i + 1)%N v in","let* r := csv_ballot fieldnames i v in","csv_ballots","numbering from 0","C45")
m("K9",W,"if v_qty v >? 0 then\n        let* (rows, j)","if v_qty v >=? 0 then\n        let* (rows, j)","csv_lines","qty 0 accepted","C45 (error on qty <= 0)")
m("K10",W,"let row := dset (u \"voterid\") vid ranks in","let row := (u \"voterid\", vid) :: ranks in","csv_ballot","voterid does not override a candidate called voterid (same for others)","C45 if claimed")
M=[x for x in M if x]
json.dump(M, open(sys.argv[1],"w"), indent=0)
