#!/usr/bin/env python3
"""Seeded bugs for a whole fetchmgr run (C70), convert_text_to_abif (C65), path resolution and IRV reports.
usage: mutations4.py OUT.json"""
import json, sys
M = []
def m(id, file, old, new, d, edit, claim):
    M.append(dict(id=id, file=file, old=old, new=new, **{"def": d}, edit=edit, claim=claim))
S="SpecfileModel.v"; C="ConvertModel.v"; X="PosixModel.v"; E="ExtfileModel.v"; I="IrvModel.v"; L="CliModel.v"
m("SP1",S,'[u "git"; u "clone"; gitrepo_url; subdir]','[u "git"; u "clone"; subdir; gitrepo_url]',"checkout_repository","arguments of git clone swapped","C70 clone")
m("SP2",S,'(git pull)") in\n    pchdir_back startdir.','(git pull)") in\n    pret tt.',"update_repository","the directory is not changed back","C70 pull: same directory afterwards")
m("SP3",S,'if there then pret response\n  else\n    go* url','if false then pret response\n  else\n    go* url',"pfetch_if_missing","existing files are downloaded again","C70 nothing overwritten")
m("SP4",S,'if fst response =? 200 then','if fst response <? 500 then',"pfetch_url","error pages are saved","C70 downloads")
m("SP5",S,'(if there then pret tt else pmakedirs d)','pret tt',"pfetch_url","the directory of a download is not made","C70 downloads, end to end")
m("SP6",S,'pfetch_urls subdir ud localpaths (S i) r response','pfetch_urls subdir ud localpaths i r response',"pfetch_urls","all urls saved under the first name","C70 downloads")
m("SP7",S,'if dmem (u "gitrepo_url") spec then\n','if dmem (u "gitrepo_url") spec && negb (dmem (u "web_urls") spec) then\n',"process_fetchspec","web urls take precedence over the repository","C70 git or web")
m("SP8",S,'match a with Some (x :: r) => Some (x :: r) | _ => b end.','match b with Some (x :: r) => Some (x :: r) | _ => a end.',"or_list","extfiles take precedence over web_urls","C70 end to end")
m("SP9",S,'write_bytes localpath (snd response)','write_bytes localpath (tl (snd response))',"pfetch_url","the first byte is lost","C70 downloads")
m("SP10",S,'pprint (u "fetchspec \'" ++ fn ++ u "\' not found.") in\n    pfail RuntimeError','pprint (u "fetchspec \'" ++ fn ++ u "\' not found.") in\n    pret tt',"process_fetchspec","a missing fetchspec is only reported","C70 missing fetchspec")
m("SP11",S,'go* _ := process_fetchspec fn in process_all r','fun w => let (_, w1) := process_fetchspec fn w in process_all r w1',"process_all","failures do not end the run","C70 in order")
m("SP12",S,'| _ => process_all fns','| _ => process_all (rev fns)',"fetchmgr_main","fetchspecs processed backwards","C70 in order")
m("SP13",S,'go* _ := run_git [u "git"; u "pull"] in\n','',"update_repository","no git pull","C70 pull")
m("SP14",S,'(if there then pret tt else pmakedirs subdir)','(if there then pmakedirs subdir else pret tt)',"pfetch_web_items","test for the download directory reversed","C70 no second download")
m("SP15",S,'else pfail GenericException) in\n        go* dlsubdir','else pret tt) in\n        go* dlsubdir',"process_fetchspec","a fetchspec without sources is accepted","C70 invalid fetchspec")
m("SP16",S,'let* d := get_str "desc" o in\n      let* e := get_str "abifloc" o in','let* d := get_str "abifloc" o in\n      let* e := get_str "desc" o in',"extfile_of","description and place of the result swapped","C70 end to end")
m("SP17",S,'process_extfilelist cwd sha1 tar_member dlsubdir (c :: r) entries','process_extfilelist cwd sha1 tar_member (c :: r) dlsubdir entries',"process_fetchspec","download and result directories swapped","C70 end to end")
m("SP18",S,'pget url in\n    if','pget localpath in\n    if',"pfetch_url","the local path is requested instead of the url","C70 downloads")
m("SP19",S,'pret (localpaths, Some (path_join subdir c))','pret (localpaths, Some c)',"pfetch_entries","saved outside the download directory","C70 downloads")
m("CT1",C,'(convert_sftxt_to_jabmod b0 b1 false)','(convert_sftxt_to_jabmod b1 b0 false)',"convert_text_to_abif","master and ballots swapped","C65 sftxt") if False else None
m("CT2",C,'convert_sftxt_to_jabmod b0 b1 false','convert_sftxt_to_jabmod b1 b0 false',"convert_text_to_abif","master and ballots swapped","C65 sftxt")
m("CT3",C,'convert_debtally_to_abif sha1 b metadata','convert_debtally_to_abif sha1 b []',"convert_text_to_abif","metadata dropped for debtally","C65 metadata")
m("CT4",C,'convert_abif_to_jabmod b cleanws add_ratings false','convert_abif_to_jabmod b cleanws true false',"convert_text_to_abif","ratings always added","C65 abif")
m("CT5",C,'Err VotelineExn => Err SystemExit | r => r end','Err VotelineExn => Ok emptyish | r => r end',"convert_text_to_abif","texts without votelines accepted","C65 abif")
m("CT6",C,'let* b := blob 0 inputblobs in Err VotelineExn in','let* b := blob 0 inputblobs in Ok emptyish in',"convert_text_to_abif","unsupported formats give an empty election","C65 unsupported")
m("CT7",C,'let* b := blob 0 inputblobs in let* raw := convert_preflib_str_to_abif b','let* b := blob 1 inputblobs in let* raw := convert_preflib_str_to_abif b',"convert_text_to_abif","the second text is converted","C65 preflib, C61 last file, C70")
m("IR1",I,'sort_str (ir_winner d)) ++ nl)','ir_winner d) ++ nl)',"get_IRV_report","tied winners not sorted in the report","report text")
m("IR2",I,'z2s (im_startingqty rm)','z2s (im_countedqty rm)',"irv_round_text","wrong figure in the report","report text")
m("IR3",I,'u "The IRV winner is " ++ w ++ nl','u "The IRV winner is " ++ tl w ++ nl',"get_IRV_report","name of the winner cut","report text")
m("CL1",L,'match after_last_dot first with Some ext => ext | None => u "abif" end','match after_last_dot first with Some ext => u "abif" | None => u "abif" end',"input_format","the extension is not used","C61 format")
json.dump(M, open(sys.argv[1], "w"), indent=1)
print(len(M))
