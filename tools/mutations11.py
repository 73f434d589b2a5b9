"""Eleventh batch of wrong programs: lines that repeat a candidate, and the first run of a conversion.  usage: mutations11.py OUT"""
import json,sys
M=[]
def m(i,f,old,new,d,e,c): M.append({"id":i,"file":f,"old":old,"new":new,"def":d,"edit":e,"claim":c})
P="ParserModel.v"
m("Y1",P,"prefs_loop mode ds n (S i) rank1 r (dset cand p2 prefs)","prefs_loop mode ds n (S i) rank1 r (match dget cand prefs with Some _ => prefs | None => dset cand p2 prefs end)","prefs_loop","the first mention of a candidate counts","C33: the last mention counts")
m("Y2",P,"prefs_loop mode ds n (S i) rank1 r (dset cand p2 prefs)","prefs_loop mode ds n (S i) rank1 r (dset cand p2 (filter (fun kv => negb (str_eqb cand (fst kv))) prefs))","prefs_loop","a repeated candidate moves to the end of prefs","C33: the order of first mention")
m("Y3",P,"prefs_loop mode ds n (S i) rank1 r (dset cand p2 prefs)","prefs_loop mode ds n (S i) (match dget cand prefs with Some _ => rank | None => rank1 end) r (dset cand p2 prefs)","prefs_loop","a repeated candidate does not end a rank","C33: ranks count the '>'")
C="CrashModel.v"
m("Y4",C,"          | (Ok _, t', l) => if str_eqb tail dot","          | (Ok _, t', l) => if negb (str_eqb tail dot)","makedirs_steps","after making the parents the directory itself is forgotten","C100: the directories are there after the run")
m("Y5",C,"if nonempty head && nonempty tail && negb (exists_at cwd t head)","if nonempty head && nonempty tail && exists_at cwd t head","makedirs_steps","parents are made when they exist","C100: a first run succeeds")
m("Y6",C,"(then! _ := (fun t => if exists_at cwd t abifsubdir then (Ok tt, t, []) else makedirs_steps (S (length abifsubdir)) abifsubdir t) in","(then! _ := (fun t => (Ok tt, t, [])) in","extfilelist_steps","the directory is not made","C100: a first run succeeds")
m("Y7",C,"else makedirs_steps (S (length abifsubdir)) abifsubdir t) in","else once (os_mkdir cwd abifsubdir) t) in","extfilelist_steps","parents are not made","C100: a first run succeeds with parents missing")
for x in M:
    s=open("/verif/rocq/theories/"+x["file"]).read(); assert s.count(x["old"])==1,(x["id"],s.count(x["old"]))
json.dump(M,open(sys.argv[1],"w"))
