#!/usr/bin/env python3
"""Seeded bugs for the importers, nested values, diagrams, fetching, JSON, command line, files and log.
usage: mutations3.py OUT.json"""
import json, sys
M = []
def m(id, file, old, new, d, edit, claim):
    M.append(dict(id=id, file=file, old=old, new=new, **{"def": d}, edit=edit, claim=claim))
P="PreflibModel.v"; D="DebtallyModel.v"; S="SftxtModel.v"; U="UtilModel.v"; G="DiagramModel.v"; F="FetchModel.v"
J="JsonParse.v"; JJ="JabmodJson.v"; C="ConvertModel.v"; L="CliModel.v"; X="PosixModel.v"; E="ExtfileModel.v"; O="LogModel.v"
m("PL1",P,"py_index shortnames (z - 1)","py_index shortnames z","part_tier","alternative n is taken for alternative n+1","C46 order of candidates")
m("PL2",P,"Ok (join [61%N] toks)","Ok (join [62%N] toks)","part_tier","tied alternatives written with >","C46 tied alternatives")
m("PL3",P,"join [62%N] tierarray","join [61%N] tierarray","ranking_line","all alternatives tied","C46 strict order")
m("PL4",P,"Ok (group 1 g ++ [58%N] ++ join","Ok (group 1 [] ++ [58%N] ++ join","ranking_line","the quantity is lost","C46 quantities")
m("PL5",P,"flat_map (fun line => match re_match ALTNAME_REGEX line with","flat_map (fun line => match re_match ALTNAME_REGEX (tl line) with","alt_names","names never found","C46 names")
m("PL6",P,"(combine shortnames names))\n      ++","(combine names shortnames))\n      ++","convert_preflib_str_to_abif","token and name swapped","C46 candidate table")
m("PL7",P,"let* ls := mapM (ranking_line shortnames) (splitlines preflib_str)","let* ls := mapM (ranking_line shortnames) (tl (splitlines preflib_str))","rankings","the first line is skipped","C46 (files whose first line is a ranking)")
m("DT1",D,"(n2s (N.of_nat (r + 1)))","(n2s (N.of_nat r))","vote_tiers","ranks counted from 0","C48 rankings")
m("DT2",D,"let* t := if memb t0 seen then deb_short_token sha1 o2 true else Ok t0 in","let* t := Ok t0 in","short_option_names","clashing tokens are not renamed","C49 distinct tokens")
m("DT3",D,"u \"  ##VID:\" ++ fst v","u \"  ##VID:\" ++ snd v","convert_debtally_to_abif","marks written as voter id","C48 voter ids") 
m("DT4",D,"Ok [join [61%N] names]","Ok [join [62%N] names]","vote_tiers","equal marks written with >","C48")
m("DT5",D,"join [62%N] tiers","join [61%N] tiers","convert_debtally_to_abif","all ranks tied","C48")
m("DT6",D,"[(group 2 g, group 1 g)]","[(group 1 g, group 1 g)]","vline_rankings","voter id is the marks","C48 voter ids")
m("DT7",D,"then i :: marked_at strrank (S i) r","then [i]","marked_at","only the first option of a rank","C48")
m("DT8",D,"Ok (firstn 16 base ++ s)","Ok (firstn 20 base)","deb_short_token","no hash in the long token","C49")
m("DT9",D,"let* ts := short_option_names sha1 (t :: seen) r in","let* ts := short_option_names sha1 seen r in","short_option_names","tokens are not remembered","C49")
m("SF1",S,"match sb_voter this with Some w => str_eqb w vid | None => false end then","match sb_voter this with Some w => true | None => false end then","ballots_step","a new voter id does not start a new ballot","C50/C51 one ballot per voter")
m("SF2",S,"Some _ => done ++ [this] | None => done end","Some _ => done | None => done end","ballots_step","finished ballots are dropped","C51 ballots")
m("SF3",S,"match contestid with Some c => str_eqb cid c | None => false end","match contestid with Some c => true | None => false end","ballots_step","other contests' lines are counted","C51 contest")
m("SF4",S,"Ok (done ++ [this])","Ok done","convert_to_ballots","the last ballot is lost","C51")
m("SF5",S,"dset tok (ranked (sv_rank p)) prefs else","dset tok (ranked 1) prefs else","prefs_step","all ranks 1","C51 ranks")
m("SF6",S,"| Some (_ :: _) => Ok (pool', contestid)","| Some (_ :: _) => let* i := field (u \"Id\") line in Ok (pool', Some i)","candpool_step","the last contest is taken","C52 contest") 
m("SF7",S,"Ok (RGrp i (RRep (Z.to_nat (l - pos)) any_char) :: rs","Ok (RGrp i (RRep (Z.to_nat l) any_char) :: rs","spec_loop","column width wrong","C50 columns")
m("SF8",S,"if overvote then Some (u \"overvote\") else if undervote","if undervote then Some (u \"overvote\") else if undervote","image_vote","overvotes not flagged","C50/C51 exceptions")
m("SF9",S,"dset i (Some (strip d)) pool","dset i (Some d) pool","candpool_step","names keep their padding","C52 names")
m("SF10",S,"if verbose then vls else j_votelines","if negb verbose then vls else j_votelines","convert_sftxt_to_jabmod","consolidation reversed","C51")
m("SF11",S,"JInt (Z.of_nat (length vls))","JInt (Z.of_nat (length lookuplines))","convert_sftxt_to_jabmod","ballot count is the number of lookup lines","C51 ballotcount")
m("UT1",U,"else firstn max_length (sub_write_in 0 (underscores false longstring))","else sub_write_in 0 (underscores false longstring)","utf8_string_to_abif_token","not cut","C53 length")
m("UT2",U,"| VList l => VList (map clean_dict l)","| VList l => VList l","clean_dict","lists not descended into","C54 no sets remain")
m("UT3",U,"| VSet l => VList (map VAtom l)","| VSet l => VList (map VAtom (tl l))","clean_dict","first element lost","C54")
m("UT4",U,"Ok (inside this_jabmod next_key sub')","Ok sub'","modify_jabmod","the enclosing object is lost","C55")
m("UT5",U,"| [k] => assign this_jabmod k new_value","| [k] => assign this_jabmod k (VList [new_value])","modify_jabmod","wrong value stored","C55")
m("UT6",U,"if atom_eqb k k' then (k', v) :: r else (k', w) :: vset k v r end.\n","if atom_eqb k k' then (k', v) :: r else vset k v r end.\n","vset","other keys are lost","C55 rest unchanged")
m("DG1",G,"if l <=? w then [(wcand","if l <? w then [(wcand","edge_for","ties get no arrow","C56")
m("DG2",G,"[(wcand, lcand, edge_label wcand lcand w l)]","[(lcand, wcand, edge_label wcand lcand w l)]","edge_for","arrows reversed","C56")
m("DG3",G,"if (ic <? ir)%nat then Ok []","if (ir <? ic)%nat then Ok []","html_cell","other half of the matrix","C57")
m("DG4",G,"Ok [Cell rk r ck c (negb (c <? r))]","Ok [Cell rk c ck r (negb (c <? r))]","html_cell","scores swapped","C57")
m("DG5",G,"candtoks (wltcolspan - 1) r","candtoks wltcolspan r","html_rows","colspan not reduced","C57 rectangular table")
m("DG6",G,"Ok (map fst (sort_desc snd l))","Ok (map fst l)","by_wins","not sorted by wins","C57")
m("DG7",G,"if wins (snd best) <? wins (snd x) then x else best","if wins (snd x) <? wins (snd best) then x else best","max_wins","least wins spelled out","C56 label of the top candidate")
m("DG8",G,"(if 0 <? wins w then wltcolspan else wltcolspan + 1)","wltcolspan","html_row","no wider cell for winless candidates","C57 rectangular table")
m("FE1",F,"if fst response =? 200 then","if true then","fetch_url_to_subdir","error pages are saved","C58 only 200 replies saved")
m("FE2",F,"if there then ret response\n  else","if false then ret response\n  else","fetch_if_missing","existing files fetched again","C58 existing files untouched")
m("FE3",F,"match a_nothing","x","-","-","-") if False else None
m("FE4",F,"fetch_urls subdir ud localpaths (S i) r response","fetch_urls subdir ud localpaths i r response","fetch_urls","every url saved under the first name","C58")
m("FE5",F,"if negb (nonempty url) || negb (nonempty subdir) || negb (nonempty localpath) then fail GenericException","if false then fail GenericException","fetch_url_to_subdir","no check of the arguments","C58")
m("FE6",F,"do* _ := write_all localpath (snd response) in ret response","do* _ := write_all localpath (tl (snd response)) in ret response","fetch_url_to_subdir","first byte lost","C58 content")
m("FE7",F,"set_nth i (path_join subdir c) (localpaths ++ [REPLACETHIS])","set_nth i c (localpaths ++ [REPLACETHIS])","fill_paths","saved outside the directory","C58 places")
m("JS1",J,"push (65536 + (1024 * (n - 55296) + (m - 56320))) (scanstring r3)","push n (push m (scanstring r3))","scanstring","surrogate pairs not joined","C64 names outside the BMP")
m("JS2",J,"else if e =? 98 then Some 8 else if e =? 102 then Some 12","else if e =? 98 then Some 8 else if e =? 102 then Some 11","escape_val","form feed read wrongly","C64")
m("JS3",J,"10 :: repeat 32 (k * level)%nat","10 :: repeat 160 (k * level)%nat","newline_indent","indented with no-break spaces","C64 text can be read again")
m("JS4",J,"Ok (JObj (dict_of_pairs (fst mr)), snd mr)","Ok (JObj (rev (dict_of_pairs (fst mr))), snd mr)","scan_once","members reversed","C64")
m("JS5",J,"match skip_ws (snd vr) with [] => Ok (fst vr) | _ => Err ValueError end\n  end.","Ok (fst vr)\n  end.","json_loads","text after the value is ignored","C64 (malformed text)")
m("JS6",J,"if neg then Z.opp (Z.of_N (digits_to_N ds)) else","if neg then Z.of_N (digits_to_N ds) else","scan_number","sign lost","C64")
m("JJ1",JJ,"opt_entry JInt \"rank\" (p_rank p) ++","opt_entry JInt \"rang\" (p_rank p) ++","json_of_pref","ranks written under another key","C64")
m("JJ2",JJ,"Some prefs, Some c, Some p, Some v => Some (Voteline q prefs c p v)","Some prefs, Some c, Some p, Some v => Some (Voteline q prefs None p v)","voteline_of_json","comments lost","C64")
m("JJ3",JJ,"(u \"wins\", JInt (wins (snd kw))); (u \"losses\", JInt (losses (snd kw)))","(u \"wins\", JInt (losses (snd kw))); (u \"losses\", JInt (wins (snd kw)))","json_of_wlt","wins and losses swapped","C61/C64")
m("WJ1",C,"if memb (fst kv) PRUNED_WIDJ_FIELDS then d else dset","if negb (memb (fst kv) PRUNED_WIDJ_FIELDS) then d else dset","widj_metadata","the wrong fields are pruned","C60")
m("WJ2",C,"JObj [(u \"rating\", snd cr)]","JObj [(u \"rank\", snd cr)]","widj_ballot","ratings stored as ranks","C60")
m("WJ3",C,"Definition widjfuncs_globals : dict json := [","Definition widjfuncs_globals : dict json := [(u \"ABIF_VERSION\", JStr (u \"0.1\")); ","widjfuncs_globals","the missing import is there","C60 (conversion always fails)")
m("WJ4",C,"(sort_by (fun x y => if str_eqb (fst x) (fst y) then str_leb (snd x) (snd y) else str_leb (fst x) (fst y)) (j_candidates m))","(j_candidates m)","candlist_text","candidates not sorted","C61 candidate list") 
m("CL1",L,"read_files s r t (blobs ++ [t]) (reads ++ [f])","read_files s r inputstr (blobs ++ [t]) (reads ++ [f])","read_files","inputstr stays empty","C61")
m("CL2",L,"let m' := if has \"consolidate\" (modifiers a) then consolidate m else m in","let m' := m in","main","consolidate modifier ignored","C61")
m("CL3",L,"if negb (memb fmt validinfmts) then Outcome [] (println (u \"Error: Unsupported input format '\" ++ fmt ++ u \"'\")) Done","if negb (memb fmt validinfmts) then Outcome [] [] (Uncaught ValueError)","main","unsupported format is a failure","C61 (status 0)")
m("CL4",L,"| (reads, Missing f) => Outcome reads (println (u \"The file '\" ++ f ++ u \"' doesn't exist.\")) Exited","| (reads, Missing f) => Outcome reads [] Exited","main","missing file not reported","C61")
m("CL5",L,"let* x := t in let* y := text_output mods r in Ok (x ++ y)","let* x := t in let* y := text_output mods r in Ok (y ++ x)","text_output","sections reversed","C61 sections in order")
m("CL6",L,"if N.eqb c 46 then Some r else None","if N.eqb c 47 then Some r else None","after_last_dot","extension taken after a slash","C61 input format by extension")
m("CL7",L,"else if str_eqb to (u \"jabmod\") then Ok (dumps_indent 4 (json_of_jabmod m))","else if str_eqb to (u \"jabmod\") then Ok (dumps_indent 4 (json_of_jabmod (consolidate m)))","render","jabmod output always consolidated","C61 conversions")
m("CL8",L,"| Ok out => Outcome reads (println out) Done\n                | Err e","| Ok out => Outcome reads out Done\n                | Err e","main","no newline at the end","C61 output text")
m("EX1",E,"match a with Some (c :: r) => Some (c :: r) | _ => b end","match b with Some (c :: r) => Some (c :: r) | _ => a end","or_else","the argument overrides the entry's srcfmt","C59")
m("EX2",E,"| Ok s => match read_all r t with Ok l => Ok (s :: l)","| Ok s => match read_all r t with Ok l => Ok (l ++ [s])","read_all","files in reverse order","C59")
m("EX3",E,"| Err FileNotFoundError => Err SystemExit\n              | Err e => Err e","| Err FileNotFoundError => Ok []\n              | Err e => Err e","read_all","missing downloads are skipped","C59")
m("EX4",E,"[(u \"description\", c :: d)]","[(u \"desc\", c :: d)]","convert_files_to_abif","description under another key","C59")
m("EX5",E,"link_file infile abifsubdir (path_join abifsubdir loc)","link_file infile dlsubdir (path_join abifsubdir loc)","process_entry","link relative to the wrong directory","C59 link leads to the download")
m("EX6",E,"do! abifstr := lift (convert_jabmod_to_abif (consolidate m)) in","do! abifstr := lift (convert_jabmod_to_abif m) in","convert_subfiles","not consolidated","C59 nameq archives")
m("EX7",E,"do! _ := write_text cwd loc abifstr in\n      convert_subfiles","do! _ := write_text cwd tarball_fn abifstr in\n      convert_subfiles","convert_subfiles","the archive is overwritten","C59 downloads kept")
m("EX8",E,"let infiles := map (path_join dlsubdir) copies in","let infiles := copies in","process_entry","downloads looked for in the current directory","C59")
m("EX9",E,"process_entries dlsubdir abifsubdir archive_subfiles r srcfmt\n  end.","process_entries dlsubdir abifsubdir archive_subfiles r None\n  end.","process_entries","the format is not kept for later entries","C59 (sticky format)")
m("PX1",X,"fun q => if place_eqb q p then n else t q.","fun q => if place_eqb q p then n else None.","put","everything else disappears","C59 other files untouched")
m("PX2",X,"| 13 :: r => match r with 10 :: r' => 10 :: universal_newlines r' | _ =>","| 13 :: r => match r with 10 :: r' => 10 :: 10 :: universal_newlines r' | _ =>","universal_newlines","CRLF read as two newlines","C59 (texts with CRLF)")
m("PX3",X,"match utf8_encode s with\n                   | Ok b => (Ok tt, put p (Some (NFile b)) t)","match utf8_encode s with\n                   | Ok b => (Ok tt, put p (Some (NFile (match at_place t p with Some (NFile c) => c ++ b | _ => b end))) t)","write_text","appended instead of replaced","C59 content of the file")
m("LG1",O,"++ msg ++ (if newline then [10%N] else []).","++ msg ++ (if newline then [] else [10%N]).","log_text","newline flag reversed","C62")
m("LG2",O,"match dget f (lg_files s) with Some c => c | None => [] end ++ text","text","append_to","the file is overwritten","C62 append only")
m("LG3",O,"if lg_instance s then (Ok tt, s)","if false then (Ok tt, s)","log_new","every call makes a new instance","C62 opened once")
m("LG4",O,"(dset filename old (lg_files s))","(dset filename [] (lg_files s))","log_new","opening truncates","C62 append only")
m("LG5",O,"if (S k <? length s)%nat then firstn (S k) s ++ u \"..\" else s","firstn (S k) s","shortened","no mark on shortened names","C62 (text of a line)")
m("LG6",O,"Logstate (lg_instance s) (lg_filename s) None (lg_msgs s)","Logstate false (lg_filename s) None (lg_msgs s)","log_close","closing forgets the instance, so the log is reopened","C62 never reopened")
m("LG7",O,"match nth_error callers 1 with","match nth_error callers 0 with","log_log","the caller's own frame","C62 frame shown")
M=[x for x in M if x]
json.dump(M, open(sys.argv[1],"w"))
print(len(M))
