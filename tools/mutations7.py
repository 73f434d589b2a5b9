#!/usr/bin/env python3
"""Seeded bugs: candidates without a name, nameq members, jabmod files, the call stack (C43, C61, C64, C84-C89), and those edits of
mutations6 whose theorems were tightened afterwards.
usage: mutations7.py OUT.json"""
import json, os, sys
M = []
T = os.path.dirname(os.path.abspath(__file__)) + "/../rocq/theories/"
def m(id, file, old, new, d, edit, claim):
    n = open(T + file).read().count(old)
    if n != 1: print("PATTERN", id, n)
    M.append(dict(id=id, file=file, old=old, new=new, **{"def": d}, edit=edit, claim=claim))
C="CliModel.v"; V="ConvertModel.v"; N="NameqModel.v"; J="JabmodJson.v"; S="StackModel.v"; X="PosixModel.v"; H="HtmlModel.v"; B="DebtallyModel.v"; F="SftxtModel.v"; W="WriterModel.v"; P="ParserModel.v"; I="IrvModel.v"
# candidates without a name
m("Q3",V,'match snd kn with Some n => n | None => u "None" end)) (sf_candidates m)) (sf_votelines m).','match snd kn with Some n => n | None => fst kn end)) (sf_candidates m)) (sf_votelines m).',"jabmod_of_sf","a candidate without a name is called by its token","C90 (sftxt)")
m("Q35",J,'Some JNull | None => None | Some v => Some v end.\nFixpoint mapO','None => None | Some v => Some v end.\nFixpoint mapO',"member","null is not absent","C64: null comments")
m("Q1",V,'if is_null j then JStr (u "None") else j.','if is_null j then JStr [] else j.',"none_name","null becomes the empty name","C88: same output after a saved jabmod")
m("Q2",V,'map fst (filter (fun kv => is_null (snd kv)) cs) | _ => [] end','map fst (filter (fun kv => negb (is_null (snd kv))) cs) | _ => [] end',"null_named","the named ones","C88, C76: jabmod files")
m("Q4",C,'| Ok m => map fst (filter (fun kn => match snd kn with None => true | Some _ => false end) (sf_candidates m))','| Ok m => []',"unnamed","sftxt candidates always have a name","C87: html fails; C88: null names")
m("Q5",C,'match json_loads inputstr with Ok j => null_named j | Err _ => [] end','[]',"unnamed","null names of jabmod files forgotten","C88: pipe of sftxt files")
m("Q6",C,'let* _ := render s rn to width mods m in Err TypeError','render s rn to width mods m',"render_unnamed","the page is written all the same","C87: html of sftxt files fails")
m("Q7",C,'(1 <? length (ir_winner d))%nat && existsb','(0 <? length (ir_winner d))%nat && existsb',"nameless_tie","fails for a single winner without a name","C87: only several winners fail")
m("Q8",C,'Ok (dumps_indent 4 (at_key (u "candidates") (null_names none to_null) (json_of_jabmod m)))','Ok (dumps_indent 4 (json_of_jabmod m))',"render_unnamed","the names None written as text","C88: null in the output")
m("Q9",C,'at_key (u "canddict") (null_names none to_null) (if existsb','(if existsb',"irv_unnamed","canddict keeps the text None","C73 for sftxt files (-t irvjson)")
m("Q10",C,'if existsb (fun w => memb w none) (ir_winner d) then at_key (u "winnerstr") to_null j else j','j',"irv_unnamed","winnerstr is the text None","C73 for sftxt files (-t irvjson)")
m("Q11",C,'blank (memb (st_fin1 st) none) (u "fin1n") (blank (memb (st_fin2 st) none) (u "fin2n")','blank (memb (st_fin2 st) none) (u "fin1n") (blank (memb (st_fin1 st) none) (u "fin2n")',"star_unnamed","the finalists' names swapped","C73 for sftxt files (-t json -m STAR)")
m("Q12",C,'(fst nt, let* d := irv in get_IRV_report d) else nt)','(fst nt, Ok []) else nt)',"render_unnamed","no IRV section","C88, C87: text output of sftxt files")
m("Q13",C,'match none with [] => render s rn to width mods m | _ => render_unnamed','match none with [] => render_unnamed none s rn to width mods m | _ => render_unnamed',"render_as","the careful version for everybody","html always fails: C61, C74")
# members of votelines
m("Q14",N,'Ok (Voteline 1 prefs None None None (Some (strip line))).','Ok (Voteline 1 prefs None None None (Some line)).',"nameq_line","the line is not stripped","C43_kept")
m("Q15",N,'Ok (Voteline 1 prefs None None None (Some (strip line))).','Ok (Voteline 1 prefs None None None None).',"nameq_line","the line is not kept","C43_kept")
m("Q16",J,' ++ opt_entry JStr "nameq" (v_nameq v)).',').',"json_of_voteline","member nameq not written","C64, C88: saved elections")
m("Q17",J,'opt_member str_of_json "voterid" l, opt_member str_of_json "nameq" l with','opt_member str_of_json "nameq" l, opt_member str_of_json "voterid" l with',"voteline_of_json","voterid and nameq swapped","C64, C88")
m("Q18",J,'(u "metadata", JObj (j_metadata m));','(u "metadata", JObj []);',"json_of_jabmod","metadata lost","C64, C88")
# call stack
m("Q19",S,'let callstack := stackfunc_frame :: callers in','let callstack := callers in',"abiflib_stackfunc","its own frame is missing","C89: 1 is the caller")
m("Q20",S,'if i <? 0 then Z.max 0 (i + n) else Z.min i n.','if i <? 0 then Z.max 0 i else Z.min i n.',"slice_bound","negative bounds are cut to 0","C89: default end -1")
m("Q21",S,'if i <? 0 then Z.max 0 (i + n) else Z.min i n.','if i <=? 0 then Z.max 0 (i + n) else Z.min i n.',"slice_bound","0 means the end","C89: start 0")
m("Q22",S,'firstn (Z.to_nat (hi - lo)) (skipn (Z.to_nat lo) l).','firstn (Z.to_nat hi) (skipn (Z.to_nat lo) l).',"py_slice","too many","C89")
m("Q23",S,'join (u " < ") (map fr_function','join (u " > ") (map fr_function',"abiflib_callstackstr","other separator","C89")
# tightened after mutations6
m("Q24",C,'firstn 20 inputstr ++ u "..."". "','inputstr ++ u "..."". "',"voteline_message","the whole input in the message","C85 message")
m("Q25",C,'let* b0 := blob 0 blobs in let* b1 := blob 1 blobs in','let* b0 := blob 1 blobs in let* b1 := blob 0 blobs in',"load","the two sftxt files swapped","C86, C87 sftxt")
m("Q26",H,'  | JInt z => negb (z =? 0)\n','  | JInt z => false\n',"json_truthy","numbers are false","C74 title, C77")
m("Q27",X,'else if str_eqb c dotdot then norm_names r (removelast acc)','else if str_eqb c dotdot then norm_names r acc',"norm_names",".. ignored","C59 links")
m("Q28",X,'Some NDir => (Err OSError, t) | _ => (Ok tt, put q None t)','Some NDir => (Ok tt, put q None t) | _ => (Ok tt, put q None t)',"os_remove","removes directories","C59: directories stay")
m("Q29",B,'if (v <? 26)%N then (65 + v)%N else (24 + v)%N','if (v <? 26)%N then (65 + v)%N else (23 + v)%N',"b32_char","digits 1-6","C47 checksum")
# more
m("Q30",F,'| (_, name) :: r =>\n      let tok := match truthy name with Some s => sf_short_token s | None => u "cand" ++ n2s n end in\n      cand_table (n + 1) r','| (_, name) :: r =>\n      let tok := match truthy name with Some s => sf_short_token s | None => u "cand" ++ n2s n end in\n      cand_table n r',"cand_table","the counter stands still","C51: tokens of candidates without a name")
m("Q31",F,'dset (u "contestid") (match contestid with Some c => JStr c | None => JNull end)','dset (u "contestid") JNull',"convert_sftxt_to_jabmod","contest id lost","C51 metadata")
m("Q32",C,'if negb (memb fmt validinfmts) then','if memb fmt validinfmts then',"main","test reversed","C61")
m("Q33",C,'render_as (unnamed fmt inputstr blobs) s rn (a_to a) (a_width a) (modifiers a) m\'','render_as (unnamed fmt inputstr blobs) s rn (a_to a) (a_width a) (modifiers a) m',"main","consolidate ignored","C84, C88: -m consolidate")
m("Q34",C,'if has "consolidate" (modifiers a) then consolidate m else m','if has "consolidate" (modifiers a) then m else consolidate m',"main","consolidates unless asked","C61, C84")
json.dump(M, open(sys.argv[1], "w"))
print(len(M))
