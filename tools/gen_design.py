#!/usr/bin/env python3
"""Writes DESIGN.md from tools/design_head.md, tools/design_tail.md, the table below, MANIFEST.json and the citations in the model."""
import json, re, glob, os, ast
root = os.path.dirname(os.path.dirname(os.path.abspath(__file__)))
T = {}
def t(ids, files, model, proof):
    for i in ids.split(): T[i] = (files, model, proof)
t("C01 C02 C03 C04", "PairwiseModel, PropsPairwise", "`pairwise_count_dict`: nested folds over dicts of dicts", "fold invariant: cell = sum over votelines of the quantity of lines ranking one above the other; hypotheses = tallyable (every line names only declared candidates with ranks, or leaves them out); C04 says what an unranked listed candidate does, with a counterexample")
t("C05 C09", "PairwiseModel, PropsPairwise", "`winlosstie_dict_from_pairdict` double loop, `full_copecount_from_abifmodel`", "counting lemma over pairs of candidates; refutations by `vm_compute` witnesses")
t("C06 C07 C08", "PairwiseModel, PropsPairwise", "Copeland functions, half-points in Z", "argmax of a stable sort; counting opponents; Smith set argument")
t("C10 C11 C12 C13 C14 C15", "ScoreModel, PropsScore", "scorestar.py and add-scores; ratings int or decimal string; scaled scores in Q", "fold invariants; stable sort; dense rank characterised by counting")
t("C16 C17 C18 C19 C20 C21 C22 C23 C24 C25 C26 C27", "IrvModel, IrvFacts, IrvStrict, IrvTrace, IrvCriteria, PropsIrv", "irvtally.py with oracles for random.choice and set order, fuel for the recursion", "induction on rounds with invariants; trace of rounds; two-run bisimulation for C23; refutation witnesses")
t("C28 C29 C30 C31 C32 C33 C34 C35 C36 C37 C38 C63", "ParserModel, RegexFacts, ParserFacts, ParserPrefs, ParserRender, ParserFile, ParserText, ParserLines, PropsParser, PropsRepeat", "core.py reader over code points, line regexes run by the backtracking engine", "invariants over lines for all texts; exact evaluation lemmas for written forms through regex soundness/completeness")
t("C39 C40 C41", "WriterModel, RoundtripFacts, RoundtripFile, RoundtripParsed, PropsRoundtrip", "ABIF writer and ranklist", "print-then-parse by induction; every parsed model is shown fit for writing; each condition shown necessary by a counterexample")
t("C42 C43", "NameqModel, UrlText, UrlFacts, NameqFacts, PropsNameq", "nameq.py, quote_plus / parse_qs with UTF-8", "codec round trip; induction over lines")
t("C44 C45", "WriterModel, JsonText, JsonFacts, ConsolidateFacts, CsvFacts, PropsConvert", "consolidation keyed by json.dumps(sort_keys), csv.DictWriter rows", "injectivity of json.dumps; induction; csv text read back")
t("C46 C47", "DebtallyModel, ImportFacts, DebtallyFacts, PropsImport, PropsImportMore", "debtally.py", "exact evaluation lemma per line kind, then the ABIF reader on the result")
t("C48 C49", "PreflibModel, ImportFacts, PreflibFacts, PropsImport", "preflib.py", "exact evaluation lemma per line kind, then the ABIF reader on the result")
t("C50 C51 C52", "SftxtModel, SftxtFacts, SftxtFile, PropsSftxt, PropsSftxtFile", "sftxt.py fixed-width reader, grouping, tokens, jabmod", "grouping invariant over the stream of lines; field extraction by arithmetic on offsets")
t("C53 C54 C55", "UtilModel, PropsUtil, PropsEdges", "util.py token shortening; clean_dict; _modify_jabmod on nested values", "structural induction")
t("C56 C57", "DiagramModel, PropsDiagram", "vizelect.py node and edge lists; HTML and text pairwise tables as lists of cells", "induction over rows/columns; each pair once")
t("C58", "FetchModel, PropsFetch", "fetch_web_items over an abstract file map, crash after any step, any refusals and replies, any number of runs", "step invariant over histories")
t("C59", "PosixModel, ExtfileModel, PosixFacts, PropsExtfile, PropsExtfileMore", "process_extfilelist on a tree with directories and links", "frame lemmas for path resolution; induction over the entries")
t("C60", "ConvertModel, PropsWidj, PropsEdges", "widjfuncs.py", "case analysis")
t("C61", "CliModel, PropsCli", "abiftool.py main after argparse", "case analysis, induction over modifiers and file names")
t("C62", "LogModel, PropsLog", "devtools.py log singleton as a state machine over call histories", "induction over the history")
t("C64", "JsonText, JsonParse, JsonParseFacts, JabmodJson, PropsJson", "json.dumps (any indent) and json.loads", "structural induction: parse (print v) = v")
t("C65", "ConvertModel, PropsConvertText", "convert_text_to_abif", "composition of C39-C40, C46, C49, C51, C64")
t("C66 C67", "IrvModel, IrvMonotone, PropsIrvMore", "irvtally.py on two related elections", "simulation between the two counts, round by round; refutation witnesses")
t("C68", "PairwiseModel, PropsCopeMore", "pairwise.py on two related elections", "pointwise comparison of matrices; permutation and renaming lemmas")
t("C69", "ScoreModel, PropsScoreMore", "scorestar.py on two related elections", "as C68")
t("C70", "SpecfileModel, SpecfileFacts, PropsSpecfile", "fetchmgr.py main, process_fetchspec, git functions and downloads on the tree of C59, joined to the conversion", "state monad with frame lemmas; joins C59 and C65 end to end")
t("C71", "SftxtMainModel, PropsSftxtMain", "sftxt.py main after argparse and both dump functions, over a map of files; the ballots as a lazy generator", "generator lemma joining C50; parse_qs and json.loads inverses; C44 idempotence")
t("C72", "IrvModel, ScoreModel, PairwiseModel, PropsReport", "The three report functions as text, line by line; specification: the list of lines.", "The rounds' text is the unlines of the specified lines by induction on the rounds; the figures come from C17, C22, C10, C11 and C13.")
t("C73", "ResultsJson, JsonText, JsonParse, PropsResults, CliModel, PropsCliMore", "The result dictionaries as JSON values with their keys in order, printed by the model of json.dumps and read by the model of json.loads; sets in an arbitrary order.", "Every string is text and no key is repeated (names of rounds are candidates by induction on the rounds), so loads(dumps(x)) = x by C64; the figures come from C10-C13 and C22; whole runs through C36.")
t("C74", "HtmlModel, PropsHtml, CliModel, PropsCliMore", "The tree handed to BeautifulSoup; prettify is any text that puts blanks between the escaped pieces; specification: a scanner for tags and character references.", "Scanning a laid out page gives the pieces back (induction on the pieces, adjacent texts excluded); the pieces' tags are in a fixed list; contents from C57.")
t("C75", "HtmlModel, PropsHtml, CliModel, PropsCliMore", "splitlines, the two substitutions and join as text functions; the drawing is a parameter.", "Induction on the line with a count of the bars so far.")
t("C76", "ScriptsModel, PropsScripts", "The main functions of the modules, over the surroundings of CliModel; newline translation of text files as a text function.", "Unfolding both programs to the same library calls; for the pipes, splitlines is invariant under newline translation and an added final newline changes nothing; JSON with trailing white space parses.")
t("C77", "ScriptsModel, PropsScripts", "The fetchspec as JSON; yaml.dump is a parameter.", "Induction on the archive entries; the regular expression as a suffix test followed by the last path part.")
t("C78", "PropsChars", "The reader model as it is.", "An invariant 'all characters satisfy P' through every function of the reader, for arbitrary P; the theorem instantiates P with 'occurs in the file' and 'is a Unicode scalar value'.")
t("C79", "PropsFiles", "The reader model as it is, with the tally models; the table of candidates is shown to be a fold over the lines.", "The votelines of a file are those of its lines (C29), so a permutation of lines permutes them; the table is characterised by its lookups (last declaration, else mention), which makes it independent of the interleaving. Results then follow from the order theorems C03, C26, C68, C69 and determinism of the IRV trace.")
t("C80", "PropsIrvSym", "The IRV model as it is; two runs on related inputs.", "Renaming and scaling commute with every function of the count, by induction over rounds (no hypothesis on the ballots). Independence of set order comes from C23 applied twice around the identity order; candidate order from determinism of the trace. For the unlisted candidate the first round is compared case by case (tie, majority, candidates without votes), after which both counts continue alike.")
t("C81", "IrvEqual, PropsIrvEqual", "The IRV model as it is. The specification (has_own_rank, counted_choice, no_choice, first_shared, kept) uses only which candidates a line lists and which it prefers to which.", "The while loop over reversed ranks is shown to find the end of the first group of equal ranks, so the recursion visits group after group; induction over it gives the candidate counted. Induction over the rounds carries the list of votelines still present. Two runs on line-wise equal ballots agree by induction over rounds.")
t("C82", "RoundtripExact, PropsStable, PropsPipe", "Reader and writer as modelled for C28-C40; the run of abiftool -t abif of C61.", "The two forms of a preference text (sorted by rating, sorted by rank) are computed exactly; the reader's result of such a text is sorted the same way, so sorting it again changes nothing and the same text comes out. The candidate table: merging the listed tokens into the simple part of the table is idempotent. Metadata: a pass is a fold of dictionary updates, computed once and twice.")
t("C83", "PropsPipe", "The command line model of C61 for both programs of the pipe; the second reads what the first printed, with universal newlines.", "C40 gives line-wise equal ballots; C81_same_ballots, C39_same_scores and the pairwise part of C40 give equal results, with bounds on ranks from the length of the text; the outputs are functions of these results. The candidate on which abifmodel_has_ratings looks may change, hence the condition on the first voteline.")
t("C84", "IrvCounts, PropsCounts", "The counts of C01, C10-C15 and C16-C27, consolidate of C44 and main of C61.", "Any sum over the ballots of a quantity that depends on the marks only is regrouped by ways of marking (one representative for each that occurs in either election), so it is the same for both. The pairwise cells, scores and - round by round, since the eliminated candidates are the same - the IRV tallies are such sums; the two runs of the IRV loop are then equal by induction over the rounds.")
t("C85", "PropsEnding", "main of C61 with every writer and report it calls.", "For each output the model read from the text is shown to be in the writer's domain (C36, C78, C84 for the consolidated one) and the writer total there, or to fail exactly on the stated condition; the sections of the text report are then combined in order. The statement compares with a function written for this purpose (complaint).")
t("C86", "PropsFormats", "main of C61 with the readers of C43, C46, C49 and C51 and the tally of C01.", "Each reader's theorem gives the votelines; their ranks are shown to be below the tally's limit, the names to be text, and the counts to be those of the file's own records by a weighted sum over corresponding records. The printed JSON is read back by the parser of C64.")
t("C87", "PropsEndingMore", "main of C61, with render_unnamed: what abiftool does with a candidate whose name is None.", "Each reader is shown to give a usable model in the sense of C85 (ranked, scorable, countable by IRV, printable), so that C85's analysis of the outputs applies; the readers' own failures are collected by an induction over their loops.")
t("C88", "PropsJabmodOut", "main of C61 with candidates that may have a null name (name_nulls, null_named in ConvertModel; render_unnamed in CliModel).", "Every reader is shown to give a storable election (C64); dumps and loads are inverse (C64), null names survive, and main depends on the input only through the election and its nameless candidates.")
t("C89", "StackModel, PropsStack", "The two functions over a list of frames, the innermost first, as inspect.getouterframes gives them; Python indexing and slicing with negative and out-of-range bounds.", "Slices are shown equal to a place-by-place specification by induction on the list.")
t("C90", "PropsNameless", "render_unnamed in CliModel: what happens at the places where a name that is None does not go through an f-string.", "Two runs are compared, one on the election and one on the same election with the name None; the JSON texts are parsed back with loads_dumps (C64).")
t("C91", "ArgvModel, PropsArgv, PropsArgvFlags", "Python's argparse for the arguments that abiftool.py declares: _parse_optional, _get_option_tuples, _parse_known_args with consume_optional and consume_positionals, choices and type=int; then main of CliModel, -d and the exit status.", "C91_standard by induction over the options, with one lemma for each way to write an option; C91_accepted and C91_unknown by an invariant of the loop over all command lines.")
t("C92", "PropsWithdraw", "IrvModel (the count with its schedule); the election restricted to some candidates is the specification `only`.", "The state of a strict count at any round is the original ballots without the eliminated candidates (IrvStrict), which is the restricted election; trace_again rebuilds the rest of the trace from there with the candidates in another order and rounds numbered from 1; C23 removes the choice of schedule when no lot is drawn.")
t("C93", "PropsClones", "IrvModel; the smaller election is `only` of C92.", "Induction over the rounds of the larger count with the invariant that the candidates left in the smaller one are the others and, while a clone is left, k: tallies of the others agree, k has at least the tally of every clone, the totals agree. Where the smaller count is decided first, k keeps its majority when one more candidate goes.")
t("C94", "PropsAlternatives", "PairwiseModel, ScoreModel; `only` of C92.", "Preferences and ratings on a struck ballot are those of the ballot; the exactness theorems C01, C06, C08, C10-C12; a stable sort commutes with filtering.")
t("C95", "PropsLimits", "LimitsModel: the count of IrvModel with the quotient rounded to binary64 and with a number of nested calls.", "Induction over the rounds of the exact count: totals never grow, so rounding is the identity; a family of elections with one elimination per round.")
t("C96", "PropsObj", "ObjModel: the readers and consolidation on dictionaries with any keys in insertion order; main and the command line around them.", "A simulation between the program on dictionaries and the program on records, reader by reader, then through main; the printed text is read back with the JSON parser.")
t("C97", "PropsFloats", "FloatModel: scaled_scores with every operation rounded to the nearest 53-bit number, ties to even, as an axiom-free function on fractions.", "The rounding is shown to be the one of IEEE 754 (a float, none nearer, ties to even); error bounds compose over the roundings of the loop by induction; order is kept because rounding is monotone and two different integers below 2^52 are further apart than the error.")
t("C98", "PropsScriptArgv, PropsScriptSpelled", "ArgparseModel: parse_args of the standard library for parsers with one-word, + and * positionals and flag, value and help options; ScriptArgvModel: each script's parser and what main does with the result.", "A command line is described from outside by a relation between what is meant (settings and words in order) and the words that say it; that argparse reads each such line back is proved by induction on it, errors by induction on the words before the faulty one.")
t("C99", "PropsConcur", "ConcurModel: the functions of FetchModel as programs that stop at every system call, and an interleaving semantics for any number of them on one file system; a write is one byte at an offset. C99_alone relates one process alone to FetchModel.", "What a process does is bounded by a predicate on its program along all answers (what it has found missing, found or made), proved through the functions; an invariant over all processes ties it to the disk; termination by the programs' structure.")
t("C100", "PropsCrash, PropsCrashFresh", "CrashModel: the functions of ExtfileModel with the list of all trees they pass through; a file is emptied and then grows byte by byte. C100_same_run: result and final tree are those of ExtfileModel.", "An invariant (off the outputs nothing has changed; each output is begun) that every intermediate tree of a run started in a tree with the invariant has, by induction over the entries; the inputs are not outputs, so a rerun reads what the first run read.")
exec(open(root + "/tools/design_more.py").read()) if os.path.exists(root + "/tools/design_more.py") else None
man = {c["property"]: c for c in json.load(open(root + "/MANIFEST.json"))["claims"]}
props = [json.loads(l) for l in open(root + "/properties.jsonl")]
out = open(root + "/tools/design_head.md").read()
out += "## 2. Properties: what is modelled, how it is proved\n\nEvery property listed is expressed in the model; none is `not_applicable`.\n\n"
done = []
for p in props:
    k = T[p["id"]]
    if k in done: continue
    done.append(k)
    ids = [q["id"] for q in props if T.get(q["id"]) == k]
    out += "### " + ", ".join(ids) + "\n\n* files: " + k[0] + "\n* model: " + k[1] + "\n* proof: " + k[2] + "\n"
    for i in ids:
        c = man.get(i)
        if not c: continue
        q = next(x for x in props if x["id"] == i)
        out += f"* **{i}** {q['title']} ({c['status']}): " + ", ".join("`" + n + "`" for n in c["theorems"]) + (". " + c["note"] if c["note"] else "") + "\n"
    out += "\n"
# coverage
cov = {}
for f in glob.glob(root + "/rocq/theories/*.v"):
    s = open(f).read(); mod = os.path.basename(f)[:-2]
    for m in re.finditer(r"([\w/]+\.py)[:\s]*(?:lines? )?((?:\d+(?:-\d+)?(?:, ?)?(?:and )?)+)", s):
        for r in re.findall(r"(\d+)(?:-(\d+))?", m.group(2)):
            a = int(r[0]); b = int(r[1] or a)
            for x in range(a, b + 1): cov.setdefault(os.path.basename(m.group(1)), {}).setdefault(x, set()).add(mod)
out += "## 3. Which parts of the code are modelled\n\nBy function of `/repo` (generated from the citations in the model; a function counts as modelled when the model cites at least 60 % of its lines; the rest of a modelled function is logging, docstrings and imports).\n\n| file | modelled (in) | not modelled |\n|---|---|---|\n"
repo = "/repo"
for f in sorted(glob.glob(repo + "/*.py") + glob.glob(repo + "/abiflib/*.py") + glob.glob(repo + "/util/*.py")):
    fn = os.path.basename(f); yes, no = [], []
    for n in ast.walk(ast.parse(open(f).read())):
        if isinstance(n, ast.FunctionDef):
            rng = range(n.lineno, n.end_lineno + 1); c = [x for x in rng if x in cov.get(fn, {})]
            if len(c) < 0.6 * len(rng): no.append(n.name)
            else: yes.append(n.name)
    mods = sorted({m for x in cov.get(fn, {}).values() for m in x if m.endswith("Model") or m in ("Regex", "Jabmod", "JsonText", "JsonParse", "UrlText", "JabmodJson")})
    if yes or no: out += f"| {os.path.relpath(f, repo)} | {', '.join(yes)}{' (' + ', '.join(mods) + ')' if mods else ''} | {', '.join(no)} |\n"
out += "\n" + open(root + "/tools/design_tail.md").read()
open(root + "/DESIGN.md", "w").write(out)
