#!/usr/bin/env python3
"""Tenth series: CrashModel (C100)."""
import json, sys
M=[]
def m(i,f,old,new,d,e,c): M.append(dict(id=i,file=""+f,old=old,new=new,**{"def":d},edit=e,claim=c))
F="CrashModel.v"
m("X1",F,"let '(r, t') := x t in (r, t', [t'])","let '(r, t') := x t in (r, t', [])","once","a system call is no point of interruption","C100: a link that is replaced can be missing")
m("X2",F,"(seq 0 (S (length b))))","(seq 0 (length b)))","write_steps","no interruption after the last byte","C100: the complete file is one of the points")
m("X3",F,"(seq 0 (S (length b))))","(seq 1 (length b)))","write_steps","the file is never empty","C100: the file is emptied first")
m("X4",F,"map (fun k => put p (Some (NFile (firstn k b))) t) (seq 0 (S (length b)))","[put p (Some (NFile b)) t]","write_steps","the file appears at once","C100: half-written files")
m("X5",F,"(Ok tt, put p (Some (NFile b)) t, map","(Ok tt, put p (Some (NFile (b ++ [10%N]))) t, map","write_steps","a newline too many","C100: as the undisturbed run makes it")
m("X6",F,"map (fun k => put p (Some (NFile (firstn k b))) t)","map (fun k => put p (Some (NFile (skipn k b))) t)","write_steps","the end of the file comes first","C100: a beginning of the file")
m("X7",F,"| Some NDir | Some (NLink _) => (Err OSError, t, [])\n            | _ => match utf8_encode s","| Some NDir | Some (NLink _) => (Err OSError, t, [])\n            | Some (NFile _) => (Ok tt, t, [])\n            | _ => match utf8_encode s","write_steps","an existing file is kept","C100: the next run repairs")
m("X8",F,"| (Err FileExistsError, t', l) => let '(r, t2, l2) := (then! _ := once (os_remove cwd outfile) in once (os_symlink cwd symlinkval outfile)) t' in (r, t2, l ++ l2)","| (Err FileExistsError, t', l) => (Ok tt, t', l)","link_steps","an existing link is kept","C100: the next run repairs")
m("X9",F,"then! _ := once (os_remove cwd outfile) in once (os_symlink cwd symlinkval outfile)","then! _ := once (os_remove cwd outfile) in tret tt","link_steps","the link is removed and not made","C100: the run makes it")
m("X10",F,"(r, t2, l ++ l2)\n  | (Err e, t', l) => (Err e, t', l)\n  end.","(r, t2, l2)\n  | (Err e, t', l) => (Err e, t', l)\n  end.","tbind","only the last part of a run can be interrupted","C100: points of interruption")
m("X11",F,"t :: snd (extfilelist_steps dlsubdir","snd (extfilelist_steps dlsubdir","crash_trees","a run cannot be cut off before its first step","C100 (weaker set of points; the start is in 'never')")
m("X12",F,"entries_steps dlsubdir abifsubdir archive_subfiles r srcfmt\n  end.","tret tt\n  end.","entries_steps","only the first entry","C100")
m("X13",F,"(path_join abifsubdir loc) (x_desc x)","(path_join dlsubdir loc) (x_desc x)","entry_steps","converted into the download directory","C100")
m("X14",F,"then! infile := tlift (of_option IndexError (nth_error infiles 0)) in","then! infile := tlift (of_option IndexError (nth_error infiles 1)) in","entry_steps","the second copy is linked","C100")
F="ExtfileModel.v"
json.dump(M,open(sys.argv[1],"w"))
for x in M:
    s=open("/verif/rocq/theories/"+x["file"]).read()
    if s.count(x["old"])!=1: print("PATTERN",x["id"],s.count(x["old"]))
