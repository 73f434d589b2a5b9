#!/usr/bin/env python3
"""Seeded bugs: the exact object of -t jabmod (C96), floats (C95, C97), the command line (C91).
usage: mutations8.py OUT.json"""
import json, os, sys
M = []
T = os.path.dirname(os.path.abspath(__file__)) + "/../rocq/theories/"
def m(id, file, old, new, d, edit, claim):
    n = open(T + file).read().count(old)
    if n != 1: print("PATTERN", id, n)
    M.append(dict(id=id, file=file, old=old, new=new, **{"def": d}, edit=edit, claim=claim))
O="ObjModel.v"; F="FloatModel.v"; A="ArgvModel.v"; L="LimitsModel.v"
m("R1",O,'''let d1 := dset (u "qty") (JInt qty) [] in
  let d2 := dset (u "comment") (match comment with Some c => JStr c | None => JNull end) d1 in''','''let d1 := dset (u "qty") (JInt qty) [] in
  let d2 := match comment with Some c => dset (u "comment") (JStr c) d1 | None => d1 end in''',"linepair","no key comment without a comment","C96: keys of a voteline")
m("R2",O,'''JObj (match voterid with Some v => dset (u "voterid") (JStr v) d4 | None => d4 end).''','''JObj (dset (u "voterid") (match voterid with Some v => JStr v | None => JNull end) d4).''',"linepair","null voterid","C96: keys of a voteline")
m("R3",O,'''| MRankOne => Ok (dset (u "rank") (JInt 1) d0, 1)''','''| MRankOne => Ok (dset (u "rank") (JInt rank) d0, rank + 1)''',"prefs_loop_obj","comma lists get increasing ranks","C96: same election as the record")
m("R4",O,'''if N.eqb c ch_gt then Ok (dset (u "nextdelim") (JStr [c]) d', rank + 1) else Ok (d', rank)''','''if N.eqb c ch_gt then Ok (d', rank + 1) else Ok (d', rank)''',"prefs_loop_obj","nextdelim set only once","equivalent: it is set again below")
m("R5",O,'''if rating_truthy rv then dset (u "rating") (json_of_rating rv) [] else []''','''dset (u "rating") (json_of_rating rv) []''',"prefs_loop_obj","a rating of 0 is kept","C96: keys of a preference")
m("R6",O,'''if has_true_key "rank" d then d else dset (u "rank") (JInt rank) d''','''dset (u "rank") (JInt rank) d''',"assign_ranks_obj","ranks by rating overwrite","C96")
m("R7",O,'''JObj (dset (u "votelines") (JArr vls) (dset (u "metadata") (JObj md) (dset (u "candidates") (JObj cands) []))).''','''JObj (dset (u "votelines") (JArr vls) (dset (u "candidates") (JObj cands) (dset (u "metadata") (JObj md) []))).''',"emptyish_object","metadata first","C96: order of the keys")
m("R8",O,'''(map snd (sort_desc fst keyed)))
      end
  end.''','''(map snd keyed))
      end
  end.''',"convert_abif_obj","votelines not sorted by quantity","C96: same votelines as the record")
m("R9",O,'''else if has then Ok (JObj (dset (u "rating") (JInt 0) d), false)''','''else if has then Ok (j, false)''',"add_rating_obj","no 0 for a missing rating","C96, C14")
m("R10",O,'''Ok (JObj (dset (u "rating") (JInt (numcands - z)) d), true)
    | JBool''','''Ok (JObj (dset (u "rating") (JInt (numcands - z)) d), false)
    | JBool''',"add_rating_obj","is_ranking_to_rating not set","C96: metadata")
m("R11",O,'''Ok (JObj [(u "qty", JInt 1); (u "prefs", jobjs prefs); (u "nameq", JStr qs)], map fst qp).''','''Ok (JObj [(u "qty", JInt 1); (u "nameq", JStr qs); (u "prefs", jobjs prefs)], map fst qp).''',"nameq_line_obj","nameq before prefs","C96: order of the keys")
m("R12",O,'''Ok (JObj [(u "metadata", JObj (dset k_ballotcount''','''Ok (JObj [(u "meta", JObj (dset k_ballotcount''',"convert_nameq_obj","wrong key","C96")
m("R13",O,'''let k := json_dumps (sort_keys p) in
  let acc1''','''let k := json_dumps p in
  let acc1''',"consolidate_obj_step","votelines that list the candidates in another order are not merged","C96, C44")
m("R14",O,'''dset k [(u "prefs", p); (u "qty", JInt 0)] acc in''','''dset k [(u "prefs", p); (u "qty", JInt 1)] acc in''',"consolidate_obj_step","counts start at 1","C96, C44")
m("R15",O,'''dset k [(u "prefs", p); (u "qty", JInt 0)] acc in''','''dset k [(u "qty", JInt 0); (u "prefs", p)] acc in''',"consolidate_obj_step","qty first","C96: order of the keys")
m("R16",O,'''Ok (JObj (dset k x l)) | _ => Err TypeError end.''','''Ok (JObj [(k, x)]) | _ => Err TypeError end.''',"put_item","the other keys are dropped","C96: keys of jabmod files")
m("R17",O,'''JObj [(u "prefs", jobjs (fold_left prefs_step_obj votes [])); (u "qty", JInt 1)]''','''JObj [(u "prefs", jobjs (fold_left prefs_step_obj votes [])); (u "qty", JInt 2)]''',"ballot_obj","a ballot counts twice","C96, C51")
m("R18",O,'''match snd kn with Some n => JStr n | None => JNull end)) (cand_table 0 pool [])) vls).''','''match snd kn with Some n => JStr n | None => JStr (u "None") end)) (cand_table 0 pool [])) vls).''',"convert_sftxt_obj","the name None instead of null","C96: names")
m("R19",O,'''  consolidate_obj (emptyish_object metadata''','''  Ok (emptyish_object metadata''',"convert_sftxt_obj","sftxt not consolidated","C96")
m("R20",O,'''else if str_eqb fmt (u "jabmod") then json_loads inputstr''','''else if str_eqb fmt (u "jabmod") then let* j := json_loads inputstr in Ok (sort_keys j)''',"load_obj","keys of jabmod files are sorted","C96: pass-through")
m("R21",O,'''match (if has "consolidate" (modifiers a) then consolidate_obj j else Ok j) with''','''match Ok j with''',"main_exact","-m consolidate ignored","C96")
m("R22",O,'''Ok j' => Outcome reads (println (dumps_indent 4 j')) Done''','''Ok j' => Outcome reads (println (dumps_indent 2 j')) Done''',"main_exact","two blanks","C96: text")
m("R24",O,'''if has_true_key "rating" d && negb (has_true_key "rank" d) then''','''if false then''',"parse_prefstr_obj","second pass of ranks dropped","equivalent: every entry has a rank after the first pass")
m("R25",O,'''o_stdout o ++ (if debug && finished a o then debug_line else [])) (exit_status''','''o_stdout o) (exit_status''',"abiftool_exact","no debug line","C96_program")
# floats
m("R30",F,'''| Eq => if Z.even q then q else (q + 1)%Z''','''| Eq => (q + 1)%Z''',"half_even","ties away from zero","C97_float: ties to even")
m("R31",F,'''| Gt => (q + 1)%Z''','''| Gt => q''',"half_even","rounds down","C97_float: nearest")
m("R32",F,'''let k := (exponent x - 52)%Z in''','''let k := (exponent x - 23)%Z in''',"fl_pos","single precision","C97_float: 53 bits; C97_scaled")
m("R33",F,'''else (e - 1)%Z.''','''else e.''',"exponent","off by one","C97_float")
m("R34",F,'''fl (fl (inject_Z (si_score si)) * scale)''','''fl (fl (inject_Z (si_score si)) / scale)''',"scaled_floats","divides by the factor","C97_scaled")
m("R35",F,'''(fold_left (fun acc kv => fl (acc + sc_scaled (snd kv))) items 0)).''','''(fold_left (fun acc kv => fl (acc + sc_scaled (snd kv))) items 1)).''',"scaled_floats","total starts at 1","C97_scaled")
m("R36",F,'''let scale := fl (inject_Z target_scale / inject_Z total) in''','''let scale := fl (inject_Z total / inject_Z target_scale) in''',"scaled_floats","inverse factor","C97_scaled")
m("R37",F,'''else
    let scale''','''else if (total <? 0)%Z then Err ValueError else
    let scale''',"scaled_floats","negative totals refused","no claim: C97 is about scores >= 0")
m("R38",F,'''let scale := fl (inject_Z target_scale / inject_Z total) in''','''let scale := inject_Z (Qfloor (inject_Z target_scale / inject_Z total)) in''',"scaled_floats","integer division","C97_scaled")
# limits
m("R40",L,'''let up := if 2 * r =? step then Z.odd q else step <? 2 * r in''','''let up := step <=? 2 * r in''',"round53","ties up","C95_float_refuted (a tie) or equivalent there")
m("R41",L,'''if a <? 2 ^ 53 then n''','''if a <? 2 ^ 24 then n''',"round53","exact only below 2^24, but 53 bits above","equivalent: the general case gives n for n < 2^53")
m("R42",L,'''let step := 2 ^ (Z.log2 a - 52) in''','''let step := 2 ^ (Z.log2 a - 23) in''',"round53","single precision above 2^53","C95_float_refuted is an example; below 2^53 nothing changes")
m("R43",L,'''Ok (2 * max_votes >? twice).''','''Ok (2 * max_votes >=? twice).''',"float_majority","half is a majority","C95_limited: as the exact rule")
m("R44",L,'''  | O => Err RecursionError''','''  | O => Err ValueError''',"irv_count_limited","another exception","C95: RecursionError")
m("R45",L,'''irv_count_limited f o (S roundnum)''','''irv_count_limited f o roundnum''',"irv_count_limited","rounds all numbered 1","C95_limited")
# argparse
m("R50",A,'''(u "-m", AModifier); (u "--modifier", AModifier)''','''(u "-m", AModifier); (u "--modifiers", AModifier)''',"option_strings","option renamed","C91")
m("R51",A,'''Namespace None false None (u "text") None 160 false false.''','''Namespace None false None (u "text") None 80 false false.''',"defaults","width 80","C91: defaults")
m("R52",A,'''match mo with Some l => l ++ [value] | None => [value] end''','''[value]''',"take_option","the last -m counts","C91: all modifiers")
m("R53",A,'''if negb (N.eqb c 45) then inl None''','''if negb (N.eqb c 47) then inl None''',"parse_optional","options start with a slash","C91")
m("R54",A,'''| _ :: _ :: _ => inr UsageError''','''| t :: _ :: _ => inl (Some t)''',"parse_optional","an ambiguous abbreviation is the first","C91: ambiguous abbreviations")
m("R55",A,'''if str_eqb s (u "--") then inl (TDashes :: map TArgument r)''','''if str_eqb s (u "--") then inl (TDashes :: map TArgument [])''',"classify","what follows -- is lost","C91: --")
m("R56",A,'''inl (if takes_value a then ([], LNext a) else ([a], LFlag)).''','''inl ([a], LFlag).''',"no_explicit","values are not taken","C91")
m("R57",A,'''if negative_number s then inl None else if existsb (N.eqb 32) s then inl None else''','''if existsb (N.eqb 32) s then inl None else''',"parse_optional","a file named -5 is an unknown option","C91: negative numbers")
m("R58",A,'''if negative_number s then inl None else if existsb (N.eqb 32) s then inl None else''','''if negative_number s then inl None else''',"parse_optional","a file named '-x y' is an unknown option","C91")
m("R59",A,'''if takes_value a then inl ([], LValue a e)
  else match e with
       | [] => inr UsageError''','''if takes_value a then inl ([], LValue a e)
  else match e with
       | [] => inl ([a], LFlag)''',"explicit_options","--debug= is --debug","C91")
m("R60",A,'''AWidth => match py_int value with Ok z => inl (Namespace fi de fr to mo z cl sc) | Err _ => inr UsageError end''','''AWidth => match py_int value with Ok z => inl (Namespace fi de fr to mo z cl sc) | Err _ => inl ns end''',"take_option","a width that is no number is ignored","C91")
m("R61",A,'''| Some _ => (ns, extras ++ map token_str group)
  end.''','''| Some _ => (ns, extras)
  end.''',"close_group","files after a second option are forgotten","C91: files in two groups are refused")
json.dump([x for x in M if x["edit"]], open(sys.argv[1], "w"))
