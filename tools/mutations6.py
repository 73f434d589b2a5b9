#!/usr/bin/env python3
"""Seeded bugs in definitions not edited before: counting, writing, scripts, reading, tables, files (C16-C83).
usage: mutations6.py OUT.json"""
import json, os, sys
M = []
T = os.path.dirname(os.path.abspath(__file__)) + "/../rocq/theories/"
def m(id, file, old, new, d, edit, claim):
    n = open(T + file).read().count(old)
    if n != 1: print("PATTERN", id, n)
    M.append(dict(id=id, file=file, old=old, new=new, **{"def": d}, edit=edit, claim=claim))
I="IrvModel.v"; W="WriterModel.v"; S="ScriptsModel.v"; P="ParserModel.v"; C="CliModel.v"; D="DiagramModel.v"; U="UtilModel.v"; H="HtmlModel.v"; X="PosixModel.v"; F="FetchModel.v"; L="PreflibModel.v"; B="DebtallyModel.v"; K="ScoreModel.v"; A="PairwiseModel.v"; J="JabmodJson.v"; E="ExtfileModel.v"
# instant runoff
m("I1",I,'    candlist votelines.','    (firstn 1 candlist) votelines.',"eliminate_cands","only the first of several eliminated candidates leaves the ballots","C18, C81: ballots pass to candidates still in the race")
m("I2",I,'Definition big_rank : Z := 9999999999.','Definition big_rank : Z := 99.',"big_rank","infinity is 99","C81: a ballot whose ranks are all large")
m("I3",I,'  if yrank >? xrank then\n','  if yrank >=? xrank then\n',"yloop","goes on while the ranks are equal","C19, C81: equal ranks at the top")
m("I4",I,'Ok (negb (Nat.eqb (tier_end rlist xrank) 0))','Ok (Nat.eqb (tier_end rlist xrank) 0)',"top_overvoted","test reversed","C16-C18")
m("I5",I,'skipn (S y) rlist','skipn y rlist',"topcand","one of the tied candidates is kept","C81: ballots tied at the top after eliminations")
m("I6",I,'let s1 := match prev with Some p => set_update (set_update s0 p) (ed_eliminated ed) | None => s0 end in','let s1 := match prev with Some p => set_update s0 (ed_eliminated ed) | None => s0 end in',"all_elim","earlier rounds forgotten","C20, C73: all_eliminated")
m("I7",I,'py_min (filter (fun v => v >? mn) (dvals rc))','py_max (filter (fun v => v >? mn) (dvals rc))',"irv_round","the leader's votes as the penultimate votes","C22: batch elimination is safe")
m("I8",I,'Definition set_minus (a b : list str) : list str := filter (fun c => negb (memb c b)) a.','Definition set_minus (a b : list str) : list str := filter (fun c => memb c b) a.',"set_minus","the intersection","C17: the eliminated leave")
m("I9",I,'let* t := irv_rounds_text (S i) r ms in','let* t := irv_rounds_text i r ms in',"irv_rounds_text","every round is called Round 1","C72: report")
m("I10",I,'if memb c s then s else s ++ [c]','if memb c s then s else [c]',"set_add","the set keeps only the last element","C20: all_eliminated")
m("I11",I,'let total := zsum (dvals rc) in','let total := bc in',"irv_round","exhausted ballots count for the majority","C24: majority of the counted ballots")
# writer
m("W1",W,'if rating =? cur then rating_tiers cur (tier ++ [(name, p)]) rest','if rating =? cur then rating_tiers cur [(name, p)] rest',"rating_tiers","earlier candidates of a tier are lost","C39: nothing is lost on writing")
m("W2",W,'match p_rating p with Some r => rating_int r | None => Err TypeError end','match p_rating p with Some r => rating_int r | None => Ok 0 end',"rating_key","unrated candidates sorted as 0","C39: rankings survive")
m("W3",W,'''      u "#------ candlines ------" ++ [10%N] ++ concat cs ++''','''      u "#------ candlines ------" ++ [10%N] ++ concat (rev cs) ++''',"convert_jabmod_to_abif","candidates in reverse","C39, C82: order of the candidates")
m("W4",W,'concat (map meta_text (j_metadata m)) ++','concat (map meta_text (filter (fun kv => match snd kv with JInt _ => false | _ => true end) (j_metadata m))) ++',"convert_jabmod_to_abif","numbers are not written","C41, C82: metadata")
m("W5",W,'(map snd (fold_left consolidate_step (j_votelines m) []))','(map snd (fold_left consolidate_step (tl (j_votelines m)) []))',"consolidate","the first line is dropped","C44: same number of ballots")
m("W6",W,'Definition csv_field (f : str) : str := if existsb csv_special f then csv_quote f else f.','Definition csv_field (f : str) : str := if forallb csv_special f then csv_quote f else f.',"csv_field","quoted only if all characters are special","C45: csv reads back")
m("W7",W,'Definition auto_voter (i : N) : str := u "voter" ++ pad6 (n2s i).','Definition auto_voter (i : N) : str := u "voter" ++ firstn 6 (pad6 (n2s i)).',"auto_voter","numbers cut to six digits","C45: voters have different names")
m("W8",W,'let fieldnames := u "voterid" :: map fst (j_candidates m) in','let fieldnames := u "voterid" :: map snd (j_candidates m) in',"csv_table","names instead of tokens in the header","C45")
m("W9",W,'| [[]] => u """""" ++ [13%N; 10%N]','| [[]] => [13%N; 10%N]',"csv_row","a single empty field is not quoted","C45: csv reads back")
m("W10",W,'| Some (RInt z), Some l => Some ((z, fst kv) :: l)','| Some (RInt z), Some l => Some ((- z, fst kv) :: l)',"all_int_ratings","lowest rating first","C45 ranklist, C73")
# scripts
m("S1",S,'if json then Ok (dumps_indent 4 (json_of_irv (r_set_order rn) IRV_dict))','if negb json then Ok (dumps_indent 4 (json_of_irv (r_set_order rn) IRV_dict))',"irvtally_main","-j reversed","C76 irvtally")
m("S2",S,'r_draw rn 160 (textgrid_rows pairdict)','r_draw rn 80 (textgrid_rows pairdict)',"pairwise_main","another width","C76 pairwise")
m("S3",S,'convert_abif_to_jabmod abiftext false true false in\n    let* scoreres','convert_abif_to_jabmod abiftext false false false in\n    let* scoreres',"scorestar_main","scores are not added","C76 scorestar")
m("S4",S,'dset (u "filename") (JStr f) (j_metadata m)','dset (u "title") (JStr f) (j_metadata m)',"with_filename","the file name replaces the title","C76 html")
m("S5",S,'if negb (s_exists s f) then Outcome [] (println (u "The file \'" ++ f ++ u "\' doesn\'t exist.")) Exited\n  else run [f] (s_read s f).','run [f] (s_read s f).',"copedot_main","no test for the file","C76 copedot")
m("S6",S,'if json_truthy title then title else id','title',"file_entry","entries without title get none","C77 configtool")
m("S7",S,'match basename x with [] => None | b => Some b end','match x with [] => None | b => Some b end',"abif_id","the id contains the directory","C77 configtool id")
m("S8",S,'if str_eqb f (u "nameq_archive") then make_nameq_based_file_list fetchspec else Ok (JObj [(u "srcfmt", JStr f)])','make_nameq_based_file_list fetchspec',"newdict","any srcfmt taken for an archive","C77 configtool")
m("S9",S,'bullet ++ u " " ++ fst kd ++ u ": " ++ snd kd ++ [10%N]','bullet ++ u " " ++ fst kd ++ [10%N]',"help_text","descriptions not shown","C77 help")
m("S10",S,'convert_debtally_to_abif (s_sha1 s) sheet []','convert_debtally_to_abif (s_sha1 s) sheet [(u "filename", f)]',"debtally_main","adds metadata","C76 debtally")
m("S11",S,'  | Ok text => match body text with','  | Ok text => match body (strip text) with',"script","input is stripped","C76")
m("S12",S,'process_prefline (u "0") s0 None emptyish','process_prefline (u "1") s0 None emptyish',"core_main","one ballot instead of none","C76 core")
m("S13",S,'(u "CA"; u "AlamedaCounty_CA")' if False else '[u "CA"; u "AlamedaCounty_CA"]','[u "AlamedaCounty_CA"]',"fix_tag","state tag missing","C77 tags")
# reader
m("P1",P,'if dmem x t then t else dset x x t','dset x x t',"merge_cands","a vote resets the candidate's name","C28, C79: names of the candidate lines")
m("P2",P,'(dset tok desc (j_candidates m))','(if dmem tok (j_candidates m) then j_candidates m else dset tok desc (j_candidates m))',"process_candline","a candidate line after the votes is ignored","C79: order of the lines")
m("P3",P,'(i, x) :: enumerate (i + 1) r','(i, x) :: enumerate i r',"enumerate","all comments on line 0","C63 comments")
m("P4",P,'JArr (l ++ [entry])','JArr (entry :: l)',"process_comment","comments in reverse","C63 comments")
m("P5",P,'else if N.eqb c ch_lbr && existsb (N.eqb ch_rbr) r then delims true r','else if N.eqb c ch_lbr then delims true r',"delims","an unclosed bracket hides the rest","C31: any text")
m("P6",P,'Ok (removelast l ++ [x])','Ok (l ++ [x])',"set_last","appends instead of replacing","C30: ratings")
m("P7",P,'assign_ranks None (sort_desc snd keyed) prefs.','assign_ranks None (sort_asc snd keyed) prefs.',"add_ranks_by_rating","lowest rating first","C33 ranks from ratings")
m("P8",P,'match p_rating p with Some r => rating_int r | None => Ok 0 end.\n\n(** The rank-assigning','match p_rating p with Some r => rating_int r | None => Ok (-1) end.\n\n(** The rank-assigning',"rating_or_0","unrated as -1","C33 ranks from ratings")
m("P9",P,'let has_rank := match p_rank p with Some z => negb (z =? 0) | None => false end in','let has_rank := false in',"parse_prefstr","ranks always computed again","(equivalent edit: the second pass changes nothing)")
# command
m("C1",C,'match s_stdin s with Ok t => ([dash], Got t [])','match s_stdin s with Ok t => ([dash], Got t [t])',"read_input","standard input counts as a file","C61 sftxt from standard input")
m("C2",C,'Some (m :: ms) => m :: ms | _ => [u "candlist"; u "Copeland"; u "winlosstie"]','Some (m :: ms) => m :: ms | _ => [u "candlist"; u "Copeland"; u "pairwise"]',"modifiers","another default","C61 default sections")
m("C3",C,'convert_abif_to_jabmod inputstr (a_cleanws a) (a_add_scores a) (has "jcomments" (modifiers a))','convert_abif_to_jabmod inputstr (a_cleanws a) (a_add_scores a) false',"load","jcomments ignored","C61, C63 whole run")
m("C4",C,'convert_abif_to_jabmod inputstr (a_cleanws a) (a_add_scores a)','convert_abif_to_jabmod inputstr (a_add_scores a) (a_cleanws a)',"load","two flags swapped","C61 whole run")
m("C5",C,'firstn 20 inputstr ++ u "..."". "','inputstr ++ u "..."". "',"voteline_message","the whole input in the message","C61 message")
m("C6",C,'Definition exit_status (e : ending) : Z := match e with Done | Exited => 0 | Uncaught _ => 1 end.','Definition exit_status (e : ending) : Z := match e with Done => 0 | _ => 1 end.',"exit_status","a missing file fails","C61 missing file")
m("C7",C,'let* b0 := blob 0 blobs in let* b1 := blob 1 blobs in','let* b0 := blob 1 blobs in let* b1 := blob 0 blobs in',"load","the two sftxt files swapped","C61 sftxt")
# tables
m("D1",D,'if wins (snd best) <? wins (snd x) then x else best','if wins (snd best) <=? wins (snd x) then x else best',"max_wins","the last of several","C56 diagram: top")
m("D2",D,'++ wcand ++ u ": " ++ z2s wtally ++ nl_s ++ lcand ++ u ": " ++ z2s ltally','++ wcand ++ u ": " ++ z2s ltally ++ nl_s ++ lcand ++ u ": " ++ z2s wtally',"edge_label","votes swapped","C56 arrows")
m("D3",D,'cand ++ nl_s ++ wlt_text w ++','cand ++ nl_s ++',"node_label","record missing","C56 nodes")
m("D4",D,'if gone then (c :: r\', true)\n              else if ce_dagger c then (unmarked c :: r\', true) else (c :: r\', false)','if ce_dagger c then (unmarked c :: r, true) else let (r2, g) := unmark_cells r in (c :: r2, g)',"unmark_cells","the first dagger goes instead of the last","C57 daggers")
m("D5",D,'(dkeys twodimdict, map (fun row => (fst row, map snd (snd row))) twodimdict)','(dkeys twodimdict, map (fun row => (fst row, rev (map snd (snd row)))) twodimdict)',"textgrid_rows","rows reversed","C57, C75 pairwise table")
m("D6",D,'let* vals := mapM (fun ik => mat_getE ck ik pairdict) candkeys in','let* vals := mapM (fun ik => mat_getE ik ck pairdict) candkeys in',"texttable_rows","votes against instead of votes for","C57 table")
m("D7",D,'z2s (wins w) ++ u "-" ++ z2s (losses w)','z2s (losses w) ++ u "-" ++ z2s (wins w)',"wlt_text","losses before wins","C56, C57 records")
m("D8",D,'if (ic <? ir)%nat then Ok []','if (ir <? ic)%nat then Ok []',"html_cell","the other triangle","C57 cells") if False else None
# nested values
m("U1",U,'else if (z <? 0) && (0 <=? Z.of_nat n + z) then Some (Z.to_nat (Z.of_nat n + z))','else if (z <? 0) && (0 <=? Z.of_nat n + z) then Some (Z.to_nat (Z.of_nat n + z - 1))',"seq_index","-1 is the last but one","C55 nested values")
m("U2",U,'  | _, [] => []\n  end.\n\n(** v[k] *)','  | _, [] => [x]\n  end.\n\n(** v[k] *)',"replace_nth","appends beyond the end","(equivalent: never reached)")
m("U3",U,'  | VDict l, _ => Ok (VDict (vset k x l))','  | VDict l, _ => let* _ := of_option KeyError (vget k l) in Ok (VDict (vset k x l))',"assign","a new key is an error","C55 new key")
m("U4",U,'  | VDict l, _ => VDict (vset k x l)\n  | VList l, KInt z => match','  | VDict l, _ => VDict l\n  | VList l, KInt z => match',"inside","changes inside a dictionary are lost","C55 nested values")
m("U5",U,'  | KInt x, KInt y => x =? y\n','  | KInt x, KInt y => true\n',"atom_eqb","all ints are the same key","C55 other keys untouched")
# pages
m("H1",H,'if N.eqb c 39 then u "&#x27;" else [c]','[c]',"html_char","single quotes not escaped","C74 score page")
m("H2",H,'u "abiflib/html_output.py Results: " ++ json_fstr (get_abif_title abifmodel)','u "abiflib/html_output.py Results: " ++ json_fstr (get_abif_desc abifmodel)',"get_title_for_html","description as title","C74 title")
m("H3",H,'  | JInt z => negb (z =? 0)\n','  | JInt z => false\n',"json_truthy","numbers are false","C74 title, C77")
m("H4",H,'filename ++ [10%N] ++ u "-------------------------" ++ [10%N] ++ filetext','filename ++ [10%N] ++ u "-------------------------" ++ filetext',"headerfy_text_file","line end missing","C76 pairwise")
m("H5",H,'if N.eqb c 124 then let (t, j) := subn_bar k r in (43%N :: t, S j)','if N.eqb c 124 then let (t, j) := subn_bar k r in (43%N :: t, j)',"subn_bar","count not kept","C75 tables")
# files
m("X1",X,'Some _ => (Err FileExistsError, t) | None => (Ok tt, put p (Some (NLink src)) t)','Some _ | None => (Ok tt, put p (Some (NLink src)) t)',"os_symlink","replaces what is there","C59 (equivalent for link_file, which removes it)") if False else None
m("X2",X,'(Ok tt, put p (Some (NLink src)) t)','(Ok tt, put p (Some (NLink dst)) t)',"os_symlink","a link to itself","C59 links")
m("X3",X,'else if str_eqb c dotdot then norm_names r (removelast acc)','else if str_eqb c dotdot then norm_names r acc',"norm_names",".. ignored","C59 links")
m("X4",X,'match map (fun _ => dotdot) s ++ p with','match map (fun _ => dotdot) p ++ s with',"relpath","start and path swapped","C59 links")
m("X5",X,'else if str_eqb c dotdot then go (removelast cur) r','else if str_eqb c dotdot then go cur r',"walk",".. ignored","C59 paths")
m("X6",X,'Definition mkdir_parent (f : str) : act unit := path_mkdirs (is_abs f) (match rev (pnames f) with [] => [] | _ :: r => r end).','Definition mkdir_parent (f : str) : act unit := path_mkdirs (is_abs f) (rev (pnames f)).',"mkdir_parent","a directory is made where the file should be","C59 files written")
m("X7",X,'| Err e => (Err e, put p (Some (NFile [])) t)','| Err e => (Err e, t)',"write_text","the old file is kept if the text cannot be encoded","C59 failed")
m("X8",X,'Some NDir => (Err OSError, t) | _ => (Ok tt, put q None t)','Some NDir => (Ok tt, put q None t) | _ => (Ok tt, put q None t)',"os_remove","removes directories","C59: directories stay")
m("X9",F,'match rev a with [] => b | d :: _ => if (d =? slash)%N then a ++ b else a ++ slash :: b end\n  | [] =>','match rev a with [] => b | d :: _ => a ++ b end\n  | [] =>',"path_join","no slash between","C58, C59 places")
m("X10",F,'Definition dirname (p : str) : str :=\n  let head := upto_last_slash p in\n  if','Definition dirname (p : str) : str :=\n  let head := p in\n  if',"dirname","the path itself","C58 directories")
m("X11",F,'SMkdirs d => Fs (fs_files f) (real d :: above d ++ fs_dirs f)' if False else 'do* e := path_exists d in if e then fail FileExistsError else perform (SMkdirs d)','perform (SMkdirs d)',"makedirs","no error if it exists","(equivalent for fetch_web_items, which looks first)")
m("X12",F,'if memb (real p) (fs_dirs (w_fs w)) then (Err OSError, w) else perform (SOpen p) w','perform (SOpen p) w',"open_wb","a directory is overwritten","C58 directories")
m("X13",E,"abind (os_remove cwd outfile) (fun _ => os_symlink cwd symlinkval outfile) t'","abind (os_remove cwd outfile) (fun _ => aret tt) t'","link_file","the old link is removed and no new one made","C59 links")
m("X14",E,'if exists_at cwd t abifsubdir then (Ok tt, t) else','if negb (exists_at cwd t abifsubdir) then (Ok tt, t) else',"process_extfilelist","directory made only if it is there","C59")
# importers
m("L1",L,'let j := if i <? 0 then i + Z.of_nat (length l) else i in','let j := i in',"py_index","number 0 is an error","C46: number 0")
m("L2",L,'if is_digit c then digit_runs (c :: cur) r','if is_digit c then push_run [c] (digit_runs [] r)',"digit_runs","every digit a candidate","C46 rankings")
m("L3",L,'RWord (u "# ALTERNATIVE NAME ")','RWord (u "# ALTERNATE NAME ")',"ALTNAME_REGEX","misspelt","C46 names")
m("B1",B,'if ci_prefix k_nota s then u "NOTA"','if ci_prefix k_nota s then u "None"',"sub_nota","None instead of NOTA","C48 tokens")
m("B2",B,'N.eqb x (lower y) && ci_prefix','N.eqb x y && ci_prefix',"ci_prefix","case is not ignored","C48 tokens")
m("B3",B,'if (v <? 26)%N then (65 + v)%N else (24 + v)%N','if (v <? 26)%N then (65 + v)%N else (23 + v)%N',"b32_char","digits 1-6","C48 tokens with hash")
m("B4",B,'((b0 mod 8) * 4 + b1 / 64)%N','((b0 mod 8) * 4 + b1 / 32)%N',"b32_4","wrong bits","C48 tokens with hash")
m("B5",B,'RStar any_char; RLit 58%N; RPlus is_space; RGrp 2','RLit 58%N; RPlus is_space; RGrp 2',"OPTION_REGEX","nothing may stand before the colon","C48 options")
# scores and pairs
m("K1",K,'(if rating >? 0 then si_votercount si + qty','(if rating >=? 0 then si_votercount si + qty',"score_step","zero ratings counted as voters","C10 votercount")
m("A1",A,'z2s (h / 2) ++ (if Z.even h then u ".0" else u ".5")','z2s (h / 2) ++ (if Z.even h then u ".5" else u ".0")',"halves_str","reversed","C72 Copeland report")
m("A2",A,'foldM (fun m b => pair_cell_step (v_qty line) (v_prefs line) a b m) candtoks m)','foldM (fun m b => pair_cell_step (v_qty line) (v_prefs line) b a m) candtoks m)',"pair_line_step","arguments swapped (all ordered pairs are visited all the same)","(equivalent edit)")
m("A3",A,'Definition maxsize : Z := 9223372036854775807.','Definition maxsize : Z := 9223372036854775806.',"maxsize","one less","(no property names the number: ranks in question are never reached)")
m("J1",J,'json_of_rating "rating" (p_rating p) ++ opt_entry JInt "rank"','json_of_rating "rank" (p_rating p) ++ opt_entry JInt "rating"',"json_of_pref","rank and rating swapped","C64 json reads back")
m("J2",J,'match snd c with Some z => JInt z | None => JNull end','match snd c with Some z => JInt z | None => JInt 0 end',"json_of_pairmat","0 on the diagonal","C73 pairwise json")
m("J3",J,'Some JNull | None => None | Some v => Some v end.\nFixpoint mapO','None => None | Some v => Some v end.\nFixpoint mapO',"member","null is not absent","C64: null comments")
json.dump([x for x in M if x], open(sys.argv[1],"w"))
print(len(M))
