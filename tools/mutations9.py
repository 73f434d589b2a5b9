#!/usr/bin/env python3
"""Seeded bugs: command lines of the other scripts (C98), several fetches at once (C99), the scripts' JSON (C71, C76).
usage: mutations9.py OUT.json"""
import json, os, sys
M = []
T = os.path.dirname(os.path.abspath(__file__)) + "/../rocq/theories/"
def m(id, file, old, new, d, edit, claim):
    n = open(T + file).read().count(old)
    if n != 1: print("PATTERN", id, n)
    M.append(dict(id=id, file=file, old=old, new=new, **{"def": d}, edit=edit, claim=claim))
A="ArgparseModel.v"; S="ScriptArgvModel.v"; C="ConcurModel.v"; P="ScriptsModel.v"; X="SftxtMainModel.v"
# C98
m("V1",A,"if is_prefix prefix (fst oa) then [Found","if str_eqb prefix (fst oa) then [Found","option_tuples","no abbreviations","C98: abbreviated options")
m("V2",A,"[Found (Some (snd oa)) (fst oa) [] (Some rest)]","[Found (Some (snd oa)) (fst oa) [] (Some (c1 :: rest))]","option_tuples","-oVALUE keeps the letter in the value","C98: -oVALUE")
m("V3",A,"| _ :: _ :: _ => inr SUsage\n","| t :: _ :: _ => inl (Some t)\n","as_option","an ambiguous abbreviation takes the first","C98: ambiguous abbreviation refused")
m("V4",A,"if str_eqb s (u \"--\") then inl (LDashes :: map LA r)","if str_eqb s (u \"--\") then letters_of r","letters_of","-- is ignored","C98: after -- a name may begin with a dash")
m("V5",A,"if long || sep || N.eqb c 45 then inr SUsage","if sep || N.eqb c 45 then inr SUsage","explicit_option","--flag=value starts a bundle","C98: refused")
m("V6",A,"| KFlag => inl (dset (fst a) VTrue os)","| KFlag => inl os","store","flags have no effect","C98: --json, --consolidate")
m("V7",A,"| Some l => if memb v l then inl (dset (fst a) (VStr v) os) else inr SUsage","| Some l => inl (dset (fst a) (VStr v) os)","store","choices not checked","C98: a value outside the choices is refused")
m("V8",A,"| None => inl (dset (fst a) (VStr v) os)\n           end","| None => inl (match dget (fst a) os with Some _ => os | None => dset (fst a) (VStr v) os end)\n           end","store","the first setting counts","C98: the last setting counts")
m("V9",A,"match ps, extras with [], [] => inl (os, done) | _, _ => inr SUsage end","match ps with [] => inl (os, done) | _ => inr SUsage end","parse_command","extra words ignored","C98: a wrong number of words is refused")
m("V10",A,"match ps, extras with [], [] => inl (os, done) | _, _ => inr SUsage end","match extras with [] => inl (os, done) | _ => inr SUsage end","parse_command","missing words accepted","C98: a wrong number of words is refused")
m("V11",A,"| KHelp => inr SHelp","| KHelp => inr SUsage","store","-h is an error","C98: -h shows the help")
m("V12",A,"| Plus :: r => if existsb is_word group then","| Plus :: r => if true then","fill","core.py without strings","C98: at least one string")
m("V13",A,"(u \"-j\", (u \"json\", KFlag)); (u \"--json\"","(u \"-J\", (u \"json\", KFlag)); (u \"--json\"","irvtally_spec","-J for -j","C98: irvtally.py -j")
m("V14",A,"KValue (Some [u \"dot\"; u \"json\"; u \"svg\"])","KValue (Some [u \"dot\"; u \"svg\"])","copedot_spec","json not a choice","C98: --outfmt json")
m("V15",A,"(u \"-o\", (u \"outfile\", KValue None))","(u \"-o\", (u \"contestid\", KValue None))","sftxt_spec","-o sets the contest","C98: sftxt.py -o FILE")
m("V16",A,"with_help [(u \"--abif\", (u \"abif\", KValue None)); (u \"-a\", (u \"abif\", KValue None))]) [Star]","with_help [(u \"--abif\", (u \"abif\", KFlag)); (u \"-a\", (u \"abif\", KFlag))]) [Star]","fetchmgr_spec","-a is a switch (the fix)","C98: -a swallows a word")
m("V17",S,"(value_or \"outfmt\" (u \"svg\") os)","(value_or \"outfmt\" (u \"dot\") os)","copedot_script","default dot","C98: copedot.py default svg")
m("V18",S,"SfArgs (is_set \"imagelines\" os) lookupfile imagefile","SfArgs (is_set \"imagelines\" os) imagefile lookupfile","sftxt_args","files swapped","C98: lookup file first")
m("V19",S,"(value_or \"outputformat\" (u \"json\") os)","(value_or \"outputformat\" (u \"abif\") os)","sftxt_args","default abif","C98: sftxt.py default json")
m("V20",S,"| inl (os, [strings]) => ran (core_main list_str (value_or \"func\" (u \"pref_to_dict\") os) strings)","| inl (os, [strings]) => ran (core_main list_str (value_or \"func\" (u \"emptyish\") os) strings)","core_script","default emptyish","C98: core.py default")
m("V21",S,"SUsage => Process [] [] 2 |","SUsage => Process [] [] 0 |","stop_process","usage errors end with status 0","C98: refused with status 2")
m("V22",S,"| inl (os, [[f]]) => ran (irvtally_main s rn (is_set \"json\" os) f)","| inl (os, [[f]]) => ran (irvtally_main s rn (negb (is_set \"json\" os)) f)","irvtally_script","-j inverted","C98: -j")
m("V23",A,"| ENext a =>\n            match r with\n            | LA v :: r' =>","| ENext a =>\n            match r with\n            | LDashes :: LA v :: r' | LA v :: r' =>","run_words","--opt -- VALUE","C98: a missing value is refused")
m("V24",A,"andthen (group_done false group done ps extras) (fun '(done, ps, extras) =>\n      andthen (option_word t s)","andthen (inl (done, ps, extras)) (fun '(done, ps, extras) =>\n      andthen (option_word t s)","run_words","words before an option are dropped","C98: options after the file")
m("V25",A,"fill r rest (done ++ [[v]])","fill r rest ([v] :: done)","fill","positionals reversed","C98: lookup file first")
# C99
m("W1",C,"if fst response =? 200 then","if 200 <=? fst response then","fetch_url_p","error pages are saved","C99: a file holds what is sent with 200")
m("W2",C,"if there then pret response\n  else","if negb there then pret response\n  else","fetch_if_missing_p","existing files are fetched","C99: existing files kept")
m("W3",C,"do! _ := psave localpath (snd response) in pret response","do! _ := psave subdir (snd response) in pret response","fetch_url_p","writes to the subdir path","C99")
m("W4",C,"do! _ := (if there then pret tt else pmkdirs d) in","do! _ := pmkdirs d in","fetch_url_p","makedirs always","C99: nobody fails")
m("W5",C,"fetch_urls_p subdir ud localpaths (S i) r response","fetch_urls_p subdir ud localpaths i r response","fetch_urls_p","index not advanced","C99: every target is there")
m("W6",C,"fetch_entries_p subdir r (fst paths) (snd paths) response\n  end.","pret response\n  end.","fetch_entries_p","only the first entry","C99: every target is there")
m("W7",C,"do! _ := psave localpath (snd response) in pret response","do! _ := psave localpath (snd response) in do! _ := psave localpath (snd response) in pret response","fetch_url_p","the file is written twice","C99_alone: same log as FetchModel (contents are unaffected at the end)")
m("W8",C,"do! _ := psave localpath (snd response) in pret response","do! _ := psave localpath (0%N :: snd response) in pret response","fetch_url_p","a byte too many","C99: holds what is sent")
m("W9",C,"  | O, _ :: r => b :: r\n","  | O, x :: r => b :: x :: r\n","put_byte","write inserts (operating system)","C99: never too long")
m("W10",C,"pstep f (Ready (PSave p c k)) (Fs (dset (real p) [] (fs_files f)) (fs_dirs f)) (Writing p 0 c k)","pstep f (Ready (PSave p c k)) (Fs (match dget (real p) (fs_files f) with Some _ => fs_files f | None => dset (real p) [] (fs_files f) end) (fs_dirs f)) (Writing p (match dget (real p) (fs_files f) with Some x => length x | None => 0%nat end) c k)","pstep","open for appending","C99: never too long")
m("W11",C,"do! there := PExists (f_subdir spec) in\n   do! _ := (if there then pret tt else pmkdirs (f_subdir spec)) in","do! _ := pmkdirs (f_subdir spec) in","fetch_web_items_p","makedirs always at the start","C99: nobody fails")
# C71, C76
m("V26",P,"dumps_indent 4 dumped","dumps_indent 4 (JObj [])","scorestar_main","an empty object is dumped","C76: the jabmod of the file")
m("V27",P,"let* dumped := convert_abif_obj abiftext false true false in","let* dumped := convert_abif_obj abiftext true true false in","scorestar_main","the dumped object is consolidated","C76: same object as the tallied jabmod")
m("V28",P,"JObj [(u \"prefs\", jobjs (fst pc)); (u \"cands\", jstrs (snd pc))]","JObj [(u \"cands\", jstrs (snd pc)); (u \"prefs\", jobjs (fst pc))]","json_of_prefstrdict","key order","C76: exact object")
m("V29",P,"process_prefline_obj (u \"0\") s0 None (emptyish, [])","process_prefline_obj (u \"1\") s0 None (emptyish, [])","core_main","quantity 1","C76: core.py process_abif_prefline")
m("V30",X,"if sa_consolidate a then consolidate_obj j else Ok j","if sa_consolidate a then Ok j else consolidate_obj j","sf_body","--consolidate inverted","C71: --consolidate")
json.dump(M, open(sys.argv[1], "w"))
print(len(M))
