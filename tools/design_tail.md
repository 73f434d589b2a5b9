## 4. Trusted base

* Coq 8.16.1's kernel (including `vm_compute` conversion, used for concrete witnesses and examples).
* Axioms: none. `Print Assumptions` follows every theorem of every `Props*.v` and prints "Closed under the global
  context" for each of them. (`vcheck` also lists seven names of `Coq.ssr.ssrunder`: they are fields of a module type
  of the standard library loaded transitively by its arithmetic tactics; no file here imports ssreflect and no theorem depends on them.)
* Only the standard library is used (`List`, `ZArith`, `NArith`, `QArith`, `Permutation`, `Lia`, `String` for literals).
* The faithfulness of the transcription: each definition cites the lines it models. The generated table
  `WordTable.v` (which code points match `\w`) comes from Python's own `unicodedata` through `tools/gen_wordtable.py`.
* The specification vocabulary (`Spec.v`, `ParserSpec.v`, `ImportSpec.v`, `SftxtSpec.v`, "Specification" sections).

## 5. Simplifications and what is not modelled

* Numbers: `int` is Z, without the 4300-digit limit of `int()`; floats do not occur in JSON input; `total/2` and
  scaled scores are exact, and Python's recursion limit is absent, except in `LimitsModel` (C95), which gives the IRV count
  with a rounded quotient and a limit on nested calls.
* Chance: `random.choice`, set iteration order and SHA-1 are arbitrary functions; theorems hold for all of them.
* JSON `null` values are treated as absent keys of a jabmod; `JsonParse` covers the full grammar but floats.
* Consolidation drops the comment/prefstr/voterid/nameq members of lines, as the code does for merged lines.
* `csv`: field names without quotes.
* C54/C55: nested values are trees with str/int keys.
* C58: path resolution is an arbitrary static function; the operating system's refusals and the server's replies are
  an oracle by step number; several processes at once are the subject of C99. C59 and C70: real path resolution with
  symbolic links (limit 40), no refusals by the operating system; the tar reader and SHA-1 are oracles.
* C70: wrong-typed members of a fetchspec raise TypeError before anything is done (the code raises it at first use);
  messages printed by `convert_files_to_abif` when it exits are not in the list of events.
* C91: argparse's messages, the help text and the 4300-digit limit of int() are not modelled. C61: the model starts from the parsed arguments (C91); what texttable and graphviz draw, lxml's reading of the svg, BeautifulSoup's layout and the
  order of sets are parameters (`CliModel.rendering`). C74 assumes of the layout only that it adds or drops blanks around tags and
  strings (`HtmlModel.pretty`).
* C56/C57: the cells, nodes and edges handed to graphviz, BeautifulSoup and texttable are modelled, their drawing is not
  (for instance graphviz reads a ':' in an edge name as a port).
* C62: stdio buffering (every method flushes); `pformat` and frames are parameters.
* C76/C77: the command lines are the subject of C98; in a fetchspec, tags or entries of a wrong type raise TypeError (the exception's name can differ).
* Log calls (`abiflib_test_log*`) inside other functions are not part of those functions' models.
* Not modelled at all: the functions in the last column of the table above.

## 6. Findings (claims a user would expect that are refuted, or noted while modelling)

* Pairwise: a listed candidate without a rank erases votes already counted (C04); ties count twice in the win-loss-tie
  list (C05) and as a full point each in the Copeland score, which can change the winner (C09) and breaks reversal
  symmetry (C68).
* IRV: `del` while enumerating skips the next line, so with overvotes the order of lines can change the winner (C26);
  `has_tie`, `bottomtie`, `all_eliminated`, `countedqty` do not mean what their names say (C27); as expected of IRV,
  monotonicity and participation fail (C67).
* Reader: `[]` raises TypeError; `=[tok]:[name]` never matches (C63); a quoted candidate without rating is lost and a
  rating 0 is dropped (C37); a repeated name can leave nobody with rank 1 (C29); `{comments: x}` with storecomments
  raises AttributeError (C31); a comma-blank inside brackets loses the blank (C40).
* Writer: conditions of the round trip each shown necessary (C40).
* Debian: what precedes the last ': ' of an option's name is lost (C46); clashes of plain tokens are not resolved (C47).
* PrefLib: 0 means the last alternative, declared numbers are ignored, a comma in a name splits the candidate (C48, C49);
  the fetchspec's description is dropped (C65, C70 sample).
* The San Francisco script: `--contestid` and `--imagelines` are ignored for abif and jabmod, which also go to standard output and leave the `-o` file empty; `--consolidate` changes nothing; urlencoded and csv96 need three image lines per voter (IndexError in mid-file) and drop a fourth (C71).
* San Francisco: 20-character tokens can collide and merge candidates, duplicate marks: the last rank wins, the length check is
  dead code (C51, C52).
* HTML: the last dagger is removed from its own cell (C57); the STAR page escapes the report twice (C74); the size limit of
  `validate_abifmodel` measures the outer dictionary only, so it never rejects a large election.
* Text tables: a token with a bar is changed, and so are dashes of a heading that needs more than two lines (C75).
* fetchmgr: an interrupted download is never repaired, a non-200 reply is silently ignored (C58); `srcfmt` sticks to later
  entries, links for results in subdirectories dangle, writing through an old link overwrites the download, the same path for download and result
  deletes the download (C59); a failed clone is reported as success, `new/.././f` overwrites `f`, `--abif` is ignored (C70).
* Reports: the Copeland report names one of several tied winners; 'Total counted votes' of an IRV round need not be the sum
  of the candidates' lines (C72).
* Command line: failures exit with status 0, only the last file counts, `-` needs `-f`, `-t paircountjson -m IRV` prints the IRV
  result (C61), `-t json` alone prints a sentence that is not JSON (C73). widj input always raises NameError (C60).
* Scripts: a missing file ends them with a traceback and status 1, abiftool with status 0; `scorestar.py` prints nothing at all with one
  candidate or without points; the condition `outfmt == 'svg' or 'dot'` of `copedot.py` is always true, so its JSON branch is dead (C76).
* configtool: `_fix_tag` splits an unknown tag into letters and its result is not used; an empty file name needs `sys`, which is not
  imported; a bare `raise` (C77).
* Order and lots: with the same votes, the order of the lines decides STAR and IRV ties (C79), and the order of the candidates
  can decide a lot (C80).
* Writing and reading again: the first pass adds metadata, later ones change nothing (C82); piping through formats loses what the format cannot
  hold (C83); consolidating a file with overvotes can change the IRV result, and `-m consolidate` alone prints an empty report (C84).
* The `-d` output is no JSON even with `-t json` (C91).
* With overvotes a candidate who is out still matters to an IRV count (C92); a complete tie breaks independence of clones (C93); the withdrawal of a
  loser can change Copeland winners, and that of the losing finalist the STAR result (C94).
* Limits: a long chain of IRV rounds ends with RecursionError, and a half of an odd number above 2^53 is rounded (C95); scaled scores need not add
  up to 50 (C97).
* `fetchmgr.py -a SPEC` takes SPEC as the value of -a and fetches nothing (C98). Two runs at once can collide in makedirs, and one may
  take the other's half-written file for a complete one (C99). A conversion that is cut off leaves a file that can be read, with other candidates,
  but the next run repairs it (C100).
* Log: a wrong ABIFLIB_LOG is reported at the first call only; no reopening after close_file (C62).

### The project's own tests on the model
RepoTests.v (generated by tools/gen_repotests.py) runs the model of the whole program, ObjModel.abiftool_exact, on the files of /repo/testdata and checks
what 56 tests of /repo/pytests expect of the output (all that need no downloaded file and are not about the layout made by texttable, graphviz or
BeautifulSoup). These examples validate the transcription; no property rests on them.

## 7. Mutation testing of the theorems

`tools/mutate.py` applies one edit to the model in a scratch copy, rebuilds what depends on it and records which
theorems fail; `tools/mutations*.py` hold the edits. Every run is in `seeded/LOG.jsonl`, one line per edit, with the theorems
that failed and, where a theorem survived wrongly, the one added or tightened.
