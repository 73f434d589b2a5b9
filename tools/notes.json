{
 "C04": {
  "note": "The hoped-for claim is refuted by a concrete election; the exact behaviour is proved for all elections."
 },
 "C05": {
  "note": "Wins and losses exact; the ties figure is proved to be exactly twice the number of tied opponents, and the textbook claim is refuted."
 },
 "C09": {
  "note": "Exact score proved for all elections; the textbook score is proved for candidates without ties; refuted in general (different winner)."
 },
 "C24": {
  "note": "Sole winner in S and some winner in S proved for all elections/schedules; 'every tied winner in S' refuted by a concrete three-way tie."
 },
 "C26": {
  "note": "Full equality of results for strict ballots; the unrestricted claim is refuted by a concrete pair of adjacent overvoted lines that changes the winner."
 },
 "C27": {
  "note": "Exact meaning proved; each of the readings suggested by the names is refuted by a concrete election."
 },
 "C29": {
  "note": "Well-formedness and line independence proved for all texts; 'some candidate has rank 1' refuted (repeated name), proved when names are distinct (_partial), and C29_first_rank_exact says for every line, repeated names or not, when it holds."
 },
 "C37": {
  "note": "Refuted for quoted candidates without rating; proved for every bare, bracketed or rated form."
 },
 "C63": {
  "note": "Proved for simple tokens/names; the bracketed-token form is refuted."
 },
 "C46": {
  "note": "Exact output text and end-to-end reading proved for well-formed sheets (names without colon-blank, distinct abbreviations end to end); IndexError for undeclared options; loss of text before the last colon-blank of a name refuted the unrestricted claim. Marks are the ranks 1-9; ranks above the number of options are ignored by the code (and by vote_tiers_of)."
 },
 "C47": {
  "note": "Length and alphabet proved for every hash; distinctness proved when the abbreviations differ, refuted in general for every hash ('A b' and 'Ab')."
 },
 "C48": {
  "note": "Exact output proved for files that declare alternatives in order; IndexError for large numbers; two findings refuted: number 0, and numbers declared out of order."
 },
 "C49": {
  "note": "End to end through the ABIF reader, for names of ordinary characters distinct without spaces; commas in names refuted."
 },
 "C50": {
  "note": "Full statement over every sequence of lines; the division into runs is proved unique; each error case included."
 },
 "C51": {
  "note": "Success characterised in both directions (C51_ballots_counted, C51_only_acceptable); token table and token alphabet proved; duplicate marks and 20-character collisions refuted with counterexamples."
 },
 "C52": {
  "note": "Every specification and text; the declared-length check is refuted."
 },
 "C53": {
  "note": "exact description, length, alphabet, idempotence; alphabet with a final newline and injectivity are refuted"
 },
 "C54": {
  "note": "nested values as trees; exact condition for the result to be serialisable; sets inside tuples are refuted"
 },
 "C55": {
  "note": "nested values as trees (no aliasing); negative list positions refuted"
 },
 "C56": {
  "note": "what is handed to graphviz; rendering (and graphviz's port syntax in names with ':') not modelled"
 },
 "C57": {
  "note": "cells, captions and widths exact for every tallyable election; the dagger rule as documented is refuted, the actual one proved (C57_daggers); rendering of BeautifulSoup and texttable not modelled, except that appending an element moves it"
 },
 "C58": {
  "note": "Steps: makedirs, request, open, one byte at a time; every step may be refused by the OS and a crash may come after any step; server replies arbitrary and may depend on time; path resolution is an arbitrary function. stderr messages not modelled; several processes at once are C99."
 },
 "C60": {
  "note": "C60_refuted: the real module always raises NameError, on every input; C60_if_defined: what it would do if ABIF_VERSION were defined."
 },
 "C61": {
  "note": "argparse itself, -d, and rendering by graphviz, BeautifulSoup and texttable are parameters; IRV and STAR JSON encodings are parameters."
 },
 "C64": {
  "note": "the standard library's json.dumps / json.loads modelled without floats; key order fixed by json_of_jabmod, any order by C64_jabmod_any_form; null and absent members not distinguished."
 },
 "C59": {
  "note": "POSIX path resolution with directories and symbolic links modelled (PosixModel), also os.makedirs, os.path.relpath, pathlib, UTF-8 and universal newlines; the tar reader and SHA1 are parameters; refusals by the operating system and concurrent processes not modelled; interrupted runs are C100."
 },
 "C62": {
  "note": "environment (variable, directories, whether open succeeds) may change from call to call; pformat and the frames are parameters; stdio buffering not modelled since every method flushes."
 },
 "C40": {
  "note": "C40_parsed_roundtrip: every parsed text under the stated conditions; each condition is shown necessary by a _refuted theorem."
 },
 "C65": {
  "note": "Composes C40, C46, C49, C51, C64 with the writer and reader; candidate names or tokens must be free of the characters ABIF cannot carry (stated as hypotheses); add_ratings=false for ABIF input, as the code passes nothing else to the other readers."
 },
 "C66": {
  "note": "Strict ballots (no equal ranks), same oracle in both counts; the whole result record is shown equal."
 },
 "C67": {
  "note": "C67_more_first_places is the positive claim (strict ballots, no tie for last place before the final round); C67_monotonicity_refuted and C67_participation_refuted are machine-checked counterexamples to the stronger claims a user might expect."
 },
 "C68": {
  "note": "On tallyable models (C01). C68_reversal_refuted is a machine-checked counterexample caused by ties earning a full point; C68_reversal_without_ties is the positive form."
 },
 "C69": {
  "note": "On scorable models (C10); the winner is the first of sr_ranklist, ties resolved by table order as the code does. star_wins: finalist with strictly more runoff votes."
 },
 "C70": {
  "note": "Server and git are oracles depending on the number of earlier events; wrong-typed JSON members raise TypeError up front (the code would raise it later); POSIX tree without refusals by the OS. The downloads part needs complete entries (url/localcopy or urls/localcopies of equal length) whose local path does not end its directory part in '/.' (fit_path); that condition is shown necessary by C70_dot_overwrites_refuted."
 },
 "C71": {
  "note": "Files are a map from names to text (newlines translated); two names are two files and the name '-' is not used. The record formats are proved for files whose image lines of the contest all stand for votes (usable); what a bad line does to the generator is C50_bad_line. The urlencoded statement needs names that are Unicode text other than the word None, which cannot be told from nobody."
 },
 "C72": {
  "note": "Printed numbers are decimal texts of integers (votes are whole numbers in this model)."
 },
 "C73": {
  "note": "Names must be Unicode scalar values (C64). The order of a Python set is an arbitrary permutation. Floats do not occur in these results."
 },
 "C74": {
  "note": "BeautifulSoup is taken to escape &, < and > in strings, to write attributes as given and to add or drop blanks only around tags and strings (relation pretty in HtmlModel); the diagram embedded with -m svg is not covered by the text and tag theorems. The size check of html_snippet is taken to pass: it measures the outer dictionary only."
 },
 "C75": {
  "note": "What texttable draws is a parameter."
 },
 "C76": {
  "note": "What graphviz, texttable and BeautifulSoup do, json.dumps of floats and str() of a list are parameters."
 },
 "C77": {
  "note": "yaml.dump is a parameter."
 },
 "C78": {
  "note": "The converse (every character of the file is kept) is of course false and not claimed; C39-C41 say what is kept."
 },
 "C79": {
  "note": "Read with storecomments off. The provisos of the IRV and STAR parts are needed: C79_irv_order_refuted, C79_star_order_refuted, C79_names_order_refuted."
 },
 "C80": {
  "note": "Renaming must keep the empty token empty (the count takes it for nobody). Provisos needed: C80_candidate_order_lot_refuted, C80_unlisted_overvotes_refuted, C80_joint_refuted."
 },
 "C81": {
  "note": "The skipped line after a discarded one is the behaviour of the code (deleting from the list being enumerated), not of the specification of overvotes: C81_unseen_line shows a ballot with a shared first place counted for its third choice."
 },
 "C82": {
  "note": "The reader stores the ballot count written in the text under ballotcount_abif_metadata, which the next writing prints too: C82_first_pass_refuted. Ratings behind quoted names are stored as text and printed unchanged, read back as numbers: C82_quoted_rating_refuted."
 },
 "C83": {
  "note": "Refutations for each condition: C83_star_refuted, C83_ratings_refuted, C83_brackets_refuted."
 },
 "C84": {
  "note": "Refuted for IRV with equal ranks (C84_overvotes_refuted) and for the text report when consolidate is the only modifier (C84_cli_alone_refuted)."
 },
 "C85": {
  "note": "The reasons all occur (C85_reasons). Assumes that texttable draws a table with a header in at least four lines (draws_tables), which it does: border, header, line, border."
 },
 "C86": {
  "note": "For San Francisco files the rank bound comes from the width of the field (three characters). An empty line that ends a nameq file made by shell redirection counts as a ballot (C86_pipe_nameq)."
 },
 "C87": {
  "note": "The sizes are bounded by sys.maxsize as in C85. The order of the keys in the JSON of -t jabmod is C96. With -f sftxt, -t html and -t html_snippet always fail in practice (C87_sftxt_html)."
 },
 "C88": {
  "note": "For jabmod and widj input, that the texts in the election are made of Unicode scalar values is a hypothesis on the election, not on the file (a JSON escape can name a surrogate). The order of the keys inside a voteline is that of JabmodJson."
 },
 "C89": {
  "note": "The stack itself (inspect.currentframe, inspect.getouterframes) is a parameter. devtools.py main is not modelled: it calls a function with a keyword it does not have and always ends with TypeError."
 },
 "C90": {
  "note": "For the IRV and STAR JSON the election must be one these methods can count (irv_election, scorable and tallyable), which every election read from one of the formats but jabmod and widj is (C36, C87)."
 },
 "C91": {
  "note": "argparse is part of the standard library; its source in Python 3.11 is what is modelled, and the model agreed with it on 4500 random command lines. C91_debug_json_refuted shows that -d spoils JSON output."
 },
 "C92": {
  "note": "C92_overvotes_refuted is the counterexample with equal rankings."
 },
 "C93": {
  "note": "C93_complete_tie_refuted is the exception; C93_nonvacuous a vote split that does no harm."
 },
 "C94": {
  "note": "C94_copeland_refuted and C94_star_refuted are the exceptions."
 },
 "C95": {
  "note": "C95_depth_refuted and C95_float_refuted show that both limits can be reached. Frames used by functions other than the count itself are not modelled: `depth` is what is left for the count."
 },
 "C96": {
  "note": "The record model of the other properties drops keys that the program does not use and null comments; main_exact keeps them, and C96_through, C96_again and C96_not_json describe what happens to a jabmod file. The statement about reading back needs an object without lone surrogates."
 },
 "C97": {
  "note": "The exponent of the model's floats is unlimited; C97_range shows that all numbers of a run stay between 2^-53 and 2^54, so the limits of binary64 are not met. C15 states the same computation with exact fractions. How the floats are printed (repr) is not modelled."
 },
 "C98": {
  "note": "argparse is modelled as in Python 3.11, from its documentation and source, for the features these parsers use. The usage and help texts are parameters. textoutput.py run as a script calls a main that does not exist, and is not covered."
 },
 "C99": {
  "note": "File objects are not flushed in one piece: each byte is a step, and every interleaving of larger writes is among these schedules. Each os.makedirs is one step, so a race between two os.makedirs in the middle of a chain of parents is not covered. Processes that use gitrepo or abif_archive entries are not in this model."
 },
 "C100": {
  "note": "C100_repaired: the ABIF directory is there at first; C100_first_run: it is not, nor perhaps are directories above it. No input is an output (C59_same_place_refuted shows what happens otherwise). nameq_archive entries and outputs in subdirectories of the ABIF directory are in CrashModel and C100_same_run but not in the repair theorem. An operating system crash that loses earlier writes is not modelled: the file system keeps the order of the system calls."
 }
}