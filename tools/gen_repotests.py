#!/usr/bin/env python3
"""Writes rocq/theories/RepoTests.v: the expectations of /repo/pytests that need no downloaded file, checked on the model.
   The files of /repo/testdata are embedded; the expected values are copied from the tests."""
import os
REPO = '/repo/testdata/'
OUT = os.environ.get("OUT") or os.path.join(os.path.dirname(os.path.abspath(__file__)), "../rocq/theories/RepoTests.v")

def lit(s):
    parts, cur = [], ''
    for ch in s:
        if ord(ch) < 127 and (ch == '\n' or ord(ch) >= 32):
            cur += ch
        else:
            if cur: parts.append('u "' + cur.replace('"', '""') + '"'); cur = ''
            parts.append('[%d%%N]' % ord(ch))
    if cur: parts.append('u "' + cur.replace('"', '""') + '"')
    return ' ++ '.join(parts) if parts else '[]'

files = {}
def f(path):
    assert path.startswith('testdata/')
    path = path.replace('testdata/tenn-example/', 'testdata/mock-elections/')
    if path not in files:
        files[path] = ('file_%02d' % len(files), open(REPO + path[9:], encoding='utf-8', newline=None).read())
    return path

tests = []
def argv(args, path): return '[' + '; '.join('u "%s"' % a for a in args + [f(path)]) + ']'
def text(src, args, path, *pats):
    tests.append((src, ' /\\ '.join('has_line %s (%s) = true' % (argv(args, path), lit(p)) for p in pats)))
def key(k): return 'PIdx (%d)' % k if isinstance(k, int) else 'PKey (u "%s")' % k
def jval(v):
    if isinstance(v, list): return 'JArr [' + '; '.join(jval(x) for x in v) + ']'
    return 'JInt %d' % v if isinstance(v, int) else 'JStr (u "%s")' % v
def js(src, args, path, keys, v):
    tests.append((src, 'json_at %s [%s] = Some (%s)' % (argv(args, path), '; '.join(map(key, keys)), jval(v))))
def js_in(src, args, path, keys, v):
    tests.append((src, 'json_member %s [%s] (u "%s") = true' % (argv(args, path), '; '.join(map(key, keys)), v)))
def lines(src, args, path, n):
    tests.append((src, 'line_count %s = Z.to_nat %d' % (argv(args, path), n)))

T, B, C = 'testdata/tenn-example/', 'testdata/burl2009/burl2009.abif', 'testdata/commasep/'
irv = ['-t', 'text', '-m', 'IRV']; firv = ['-f', 'abif'] + irv
text('irv_test.py:21-23', irv, T + 'tennessee-example-scores.abif', 'Chat: 15')
text('irv_test.py:25-27', irv, T + 'tennessee-example-STAR.abif', 'The IRV winner is Knox')
text('irv_test.py:29-31', irv, T + 'tennessee-example-STAR-score-difference.abif', 'Knox: 17')
text('irv_test.py:33-35', irv, C + 'tn-example-scores-and-commas.abif', 'Knox: 58')
text('irv_test.py:37-39', irv, B, 'The IRV winner is Kiss')
text('irv_test.py:44-46, 71-73', firv, C + 'jman722-example.abif', 'The IRV winner is Georgie', 'Total starting votes: 24')
text('irv_test.py:48-69', firv, T + 'tennessee-example-overvote-02.abif', 'Memph: 42', 'Total starting votes: 100', 'Total counted votes: 83', 'Overvotes: 17',
     'Eliminated this round: Chat, Knox, Nash')
text('irv_test.py:75-77', firv, T + 'tennessee-example-irv-tie.abif', 'The IRV winners are Knox and Memph')
text('irv_test.py:79-81', ['-f', 'abif', '-t', 'irvjson'], T + 'tennessee-example-irv-tie.abif', 'Knoxville, TN and Memphis, TN')
text('irv_test.py:83-85', ['-f', 'abif', '-t', 'irvjson'], B, 'Bob Kiss (Progressive)')
js('json_test.py:14-20', ['-f', 'abif', '-t', 'winlosstiejson'], T + 'tennessee-example-simple.abif', ['Chat', 'wins'], 2)
js('json_test.py:23-29', ['-f', 'abif', '-t', 'jabmod'], T + 'tennessee-example-simple.abif', ['votelines', 0, 'qty'], 42)
S1 = 'testdata/california/simple001-example.jabmod.json'; SF = 'testdata/california/sf2018special-results.abif'
js('json_test.py:32-38', ['-f', 'jabmod', '-t', 'jabmod'], S1, ['votelines', 0, 'qty'], 1)
js('json_test.py:41-47', ['-f', 'jabmod', '-t', 'jabmod', '-m', 'consolidate'], S1, ['votelines', 0, 'qty'], 5)
ij = ['-f', 'abif', '-t', 'irvjson']
js('json_test.py:50-56', ij, SF, ['roundmeta', -1, 'winner'], ['LONDON_BREED'])
js('json_test.py:59-65', ij, SF, ['roundmeta', -1, 'eliminated'], ['MARK_LENO'])
js('json_test.py:68-74', ij, SF, ['roundmeta', -1, 'startingqty'], 254016)
js('json_test.py:82-88', ij, SF, ['rounds', -1, 'LONDON_BREED'], 116020)
js_in('json_test.py:91-97 (there: at place 3 of the list, which depends on the order of a set)', ij, SF, ['roundmeta', 0, 'eliminated'], 'WRITE_IN')
js_in('json_test.py:100-106', ij, 'testdata/mock-elections/mock-twotie.abif', ['roundmeta', 13, 'all_eliminated'], 'F')
js('json_test.py:118-124', ['-f', 'abif', '-t', 'paircountjson'], C + 'commasquare.abif', ['A,X', 'B,Y'], 12)
js('json_test.py:127-133', ['-f', 'abif', '-t', 'jabmod'], C + 'commasquare.abif', ['votelines', 0, 'prefs', 'C,Z', 'rank'], 3)
js('json_test.py:137-142', ['-f', 'abif', '-t', 'paircountjson'], T + 'tennessee-example-simple.abif', ['Chat', 'Knox'], 83)
js('json_test.py:145-150', ['-f', 'abif', '-t', 'json', '-m', 'pairwise'], T + 'tennessee-example-simple.abif', ['Chat', 'Knox'], 83)
js('json_test.py:154-159', ij, T + 'tennessee-example-simple.abif', ['winner', 0], 'Knox')
js('json_test.py:162-167', ['-f', 'abif', '-t', 'json', '-m', 'IRV'], T + 'tennessee-example-simple.abif', ['winner', 0], 'Knox')
lines('linecount_test.py:7', ['-t', 'abif'], 'testdata/widjexample/widjexample.jabmod', 22)
lines('linecount_test.py:8', ['-t', 'jabmod'], B, 8650)
N = 'testdata/bolson-nameq/'
js('nameq_test.py:20-26', ['-f', 'nameq', '-t', 'jabmod', '-m', 'consolidate'], N + 'letters.nameq', ['votelines', 2, 'qty'], 2)
js('nameq_test.py:27-33', ['-f', 'nameq', '-t', 'paircountjson'], N + 'tennessee-example-simple.nameq', ['Knox', 'Chat'], 17)
text('nameq_test.py:54-59', ['-f', 'nameq'] + irv, N + 'letters.nameq', 'Total counted votes: 10', 'The IRV winner is AAAA AAA')
text('nameq_test.py:60-65', ['-f', 'nameq'] + irv, N + 'tennessee-example-simple.nameq', 'The IRV winner is Knox')
text('nameq_test.py:66-68', ['-f', 'abif', '-t', 'nameq'], T + 'tennessee-example-simple.abif', 'Memph=1&Nash=2&Chat=3&Knox=4')
Q = 'testdata/questionable/'
text('questionable_input_test.py:9-11', ['-t', 'jabmod'], Q + 'empty.abif', 'ERROR: Empty ABIF string')
text('questionable_input_test.py:12-14', ['-t', 'jabmod'], Q + 'novotelines-tenn.abif', 'ERROR: No votelines in ')
text('questionable_input_test.py:15-17', ['-t', 'jabmod', '--cleanws'], Q + 'leadingspace-tenn.abif', 'ballotcount": 100')
text('ranking_test.py:44-53', ['-t', 'abif'], T + 'tennessee-example-simple.abif', '15:Chat>Knox>Nash>Memph')
rating = ' ' * 20 + '"rating": '
text('scorestar_test.py:13-15', ['-t', 'jabmod', '--add-scores'], T + 'tennessee-example-simple.abif', rating + '3')
text('scorestar_test.py:17-19', ['-t', 'jabmod'], T + 'tennessee-example-scores.abif', rating + '133')
text('scorestar_test.py:21-23', ['-t', 'jabmod', '--add-scores'], T + 'tennessee-example-scores.abif', rating + '133')
text('scorestar_test.py:25-27', ['-t', 'text', '-m', 'score'], T + 'tennessee-example-scores.abif', '19370 points (from 100 voters) -- Knoxville, TN')
text('scorestar_test.py:29-39', ['-t', 'text', '-m', 'STAR'], T + 'tennessee-example-STAR.abif', '261 stars (from 100 voters) -- Nashville, TN',
     'Nashville, TN preferred by 68 of 100 voters', 'Winner: Nashville, TN')
text('scorestar_test.py:41-43', ['-t', 'text', '-m', 'STAR'], T + 'tennessee-example-STAR-score-difference.abif', 'STAR Winner: Chattanooga, TN')
text('scorestar_test.py:45-47', ['-t', 'text', '-m', 'score'], T + 'tennessee-example-STAR-score-difference.abif', 'Score Winner: Knoxville, TN')
text('scorestar_test.py:49-51', ['-t', 'text', '-m', 'Copeland'], T + 'tennessee-example-STAR-score-difference.abif', 'Copeland Winner: Nashville, TN')
text('scorestar_test.py:53-55', ['-t', 'text'], T + 'tennessee-example-STAR-score-difference.abif', 'Nash (3-0-0)')
text('scorestar_test.py:57-59', ['-t', 'text', '-m', 'score'], C + 'jman722-example.abif', '88 points (from 19 voters) -- Allie')
text('scorestar_test.py:61-63', ['-t', 'text', '-m', 'score'], C + 'tn-example-missing-scores.abif', '17480 points (from 58 voters) -- Knoxville')
text('scorestar_test.py:65-67', ['-t', 'text', '-m', 'score'], C + 'tn-example-scores-and-commas.abif', '19370 points (from 100 voters) -- Knoxville')
text('scorestar_test.py:70-74', ['-t', 'text', '-m', 'STAR', '--add-scores'], B, '26167 stars (from 6706 voters) -- Andy Montroll')
text('texttable_test.py:9-14, 21-26', ['-t', 'text'], B, 'Copeland Winner: Andy Montroll', 'Montroll (5-0-0)')
text('texttable_test.py:15-20', ['-t', 'text', '-m', 'winlosstie', '-m', 'score'], B, 'Montroll')
text('html_test.py:15-22', ['-f', 'abif', '-t', 'html'], T + 'tennessee-example-scores.abif', 'Nash: 68')
text('html_test.py:23-29', ['-t', 'html_snippet', '--modifier', 'svg'], T + 'tennessee-example-simple.abif', '\u2190 Knox: 58')
text('vizelect_test.py:10-15', ['-t', 'svg'], B, '4067')
text('vizelect_test.py:16-21', ['-t', 'dot'], B, '(5 wins, 0 losses, 0 ties)')

out = []
w = out.append
w('''(** * RepoTests: the project's own tests, run on the model

    Generated by tools/gen_repotests.py.  These are tests of the transcription, not theorems about it: each example runs the model of the whole program (ObjModel.abiftool_exact)
    on a command line and a file of /repo/testdata and checks what the test in /repo/pytests expects of the output.  Left out are the tests that need downloaded
    files and those about the layout of texttable and BeautifulSoup. *)

From Verif Require Import PyBase Jabmod JsonText JsonParse IrvModel PreflibModel HtmlModel DiagramModel ParserModel CliModel ArgvModel ScriptsModel ObjModel.
Local Open Scope Z_scope.
''')
for path, (name, s) in files.items():
    w('(** /repo/%s *)\nDefinition %s : str := %s.' % (path, name, lit(s)))
w('Definition repo_files : list (str * str) := [%s].' % '; '.join('(u "%s", %s)' % (p, n) for p, (n, _) in files.items()))
w(r'''
(** The working directory of the tests; graphviz and texttable put down what they are given, without any layout. *)
Definition file_text (f : str) : option str := dget f repo_files.
Definition test_home : surroundings :=
  Surroundings (fun f => match file_text f with Some _ => true | None => false end) (fun f => match file_text f with Some t => Ok t | None => Err OSError end)
    (Err OSError) (fun x => x) (Oracle (fun _ => O) (fun _ l => l)).
Definition row_text (r : str * list (option Z)) : str := join (u " | ") (fst r :: map (fun x => match x with Some z => z2s z | None => [] end) (snd r)).
Definition plain_table (width : Z) (t : texttable_input) : str := join [10%N] (u "+--+" :: join (u " | ") (fst t) :: [] :: u "+--+" :: map row_text (snd t) ++ [u "+--+"]).
Definition plain_graph (fmt : str) (g : digraph) : str :=
  join [10%N] (map (fun n => fst n ++ u ": " ++ snd n) (g_nodes g) ++ map (fun e => fst (fst e) ++ u " -> " ++ snd (fst e) ++ u ": " ++ snd e) (g_edges g)).
Definition plain : rendering := Rendering plain_graph (fun s => [Text s]) soup_str plain_table (fun l => l).
Definition printed (argv : list str) : str := p_stdout (abiftool_exact test_home plain [] argv).
Definition has_line (argv : list str) (p : str) : bool := existsb (contains p) (splitlines (printed argv)).
Definition line_count (argv : list str) : nat := length (splitlines (printed argv)).

(** get_value_from_obj of abiftestfuncs.py on the printed JSON *)
Inductive step := PKey (k : str) | PIdx (i : Z).
Definition take_step (j : json) (p : step) : option json :=
  match j, p with
  | JObj d, PKey k => dget k d
  | JArr l, PIdx i => nth_error l (Z.to_nat (if i <? 0 then Z.of_nat (length l) + i else i))
  | _, _ => None
  end.
Definition at_path (j : json) (p : list step) : option json := fold_left (fun o s => match o with Some j => take_step j s | None => None end) p (Some j).
Definition json_at (argv : list str) (p : list step) : option json := match json_loads (printed argv) with Ok j => at_path j p | Err _ => None end.
Definition json_member (argv : list str) (p : list step) (s : str) : bool :=
  match json_at argv p with Some (JArr l) => existsb (fun j => match j with JStr x => str_eqb x s | _ => false end) l | _ => false end.
''')
for i, (src, st) in enumerate(tests, 1):
    w('(** /repo/pytests/%s *)\nExample repo_test_%02d : %s.\nProof. vm_compute. %s Qed.' % (src, i, st, 'repeat split.'))
open(OUT, 'w').write('\n'.join(out) + '\n')
print(len(tests), 'tests', len(files), 'files')
