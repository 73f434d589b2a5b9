# Formal model of electorama/abiftool in Rocq (Coq 8.16.1)

## 1. Approach

The code is Python; the model is a shallow, executable Gallina transcription, function by
function, exceptions as values (`result A = Ok a | Err exn`), loops as structural recursion or
folds, recursion on explicit fuel where Python recurses on shrinking data (and a theorem shows the
fuel is never exhausted). Every definition cites file and lines of `/repo`; simplifications are
stated in that comment and collected in section 5.

* Python `str` = `list N` of code points. `\s`, `str.strip`, `str.splitlines`, `\d`, `\w`, `int()` use the
  real Unicode sets (tables in `PyBase.v` and the generated `WordTable.v`, Unicode 14).
* Python `dict` = insertion-ordered association list with `dget/dset/ddel`.
* `re` = a small backtracking regex engine (`Regex.v`, greedy and ordered like Python's), proved
  sound and complete against an inductive matching relation (`RegexFacts.v`); the patterns of
  `abifregex.py` and of the converters are transcribed as regex ASTs.
* `sorted` = stable insertion sort (proved: permutation, ordered, stable).
* Randomness (`random.choice`), set-iteration order (IRV) and hashes (SHA-1) = oracle arguments;
  theorems quantify over all oracles.
* The outside world of `fetchmgr.py` = a tree of directories, files and symbolic links with POSIX
  path resolution (`PosixModel.v`), plus oracles for what servers answer and what git does; for C58
  also a schedule of operating-system refusals and crash points.
* The library behaviour the code leans on is itself modelled and not assumed: UTF-8, `urllib.parse`,
  `json.dumps`/`json.loads`, `csv.DictWriter`, `os.path`, `os.makedirs`, `Path.write_text`.

Kinds of files (all in `rocq/theories`): `*Model.v` (and `Jabmod.v`, `Regex.v`, `UrlText.v`, `JsonText.v`,
`JsonParse.v`) hold the transcriptions and no proofs; `Spec.v`, `ParserSpec.v`, `ImportSpec.v`,
`SftxtSpec.v` and the "Specification" section at the head of a `Props*.v` hold the small independent
vocabulary of the statements; `*Facts.v` and the like hold lemmas; `Props*.v` hold the property theorems
`Cnn_...` with non-vacuity `Example`s beside them and `Print Assumptions` after them.

Naming: a theorem `Cnn_..._refuted` proves, by a concrete witness accepted by the kernel, that a claim a user
would expect does NOT hold of the code; the theorems of the same property without the suffix prove what does hold,
for all inputs. `_partial` marks a theorem that covers part of the claim.

## 2. Properties: what is modelled, how it is proved

Every property listed is expressed in the model; none is `not_applicable`.

### C01, C02, C03, C04

* files: PairwiseModel, PropsPairwise
* model: `pairwise_count_dict`: nested folds over dicts of dicts
* proof: fold invariant: cell = sum over votelines of the quantity of lines ranking one above the other; hypotheses = tallyable (every line names only declared candidates with ranks, or leaves them out); C04 says what an unranked listed candidate does, with a counterexample
* **C01** Pairwise matrix is the exact head-to-head tally (proved): `C01_pairwise_exact`, `C01_cells`
* **C02** Pairwise accounting identity (proved): `C02_pairwise_accounting`, `C02_pairwise_bounded`
* **C03** Pairwise tally is independent of voteline order and of how identical ballots are grouped (proved): `C03_line_order_irrelevant`, `C03_splitting_irrelevant`
* **C04** What a candidate without rank does to the pairwise matrix (proved): `C04_unranked_line_erases_votes_refuted`, `C04_exact_behaviour`. The hoped-for claim is refuted by a concrete election; the exact behaviour is proved for all elections.

### C05, C09

* files: PairwiseModel, PropsPairwise
* model: `winlosstie_dict_from_pairdict` double loop, `full_copecount_from_abifmodel`
* proof: counting lemma over pairs of candidates; refutations by `vm_compute` witnesses
* **C05** Win-loss-tie records (proved): `C05_winlosstie_exact`, `C05_copecount_total`, `C05_wlt_sum`, `C05_ties_refuted`. Wins and losses exact; the ties figure is proved to be exactly twice the number of tied opponents, and the textbook claim is refuted.
* **C09** Copeland score: a tie counts as a full point (proved): `C09_half_point_refuted`, `C09_exact_score`, `C09_half_point_without_ties`. Exact score proved for all elections; the textbook score is proved for candidates without ties; refuted in general (different winner).

### C06, C07, C08

* files: PairwiseModel, PropsPairwise
* model: Copeland functions, half-points in Z
* proof: argmax of a stable sort; counting opponents; Smith set argument
* **C06** Copeland winners are exactly the top scorers (proved): `C06_winners_are_argmax`, `C06_scores_sorted_complete`, `C06_winners_exist`, `C06_no_candidates`, `C06_report_names_a_winner`
* **C07** Condorcet consistency (proved): `C07_condorcet_winner`, `C07_condorcet_loser`
* **C08** Smith criterion (proved): `C08_smith_criterion`

### C10, C11, C12, C13, C14, C15

* files: ScoreModel, PropsScore
* model: scorestar.py and add-scores; ratings int or decimal string; scaled scores in Q
* proof: fold invariants; stable sort; dense rank characterised by counting
* **C10** Score totals are exact (proved): `C10_score_totals`, `C10_total_all_scores`, `C10_unknown_candidate`
* **C11** Score ranking is a dense ranking by score (proved): `C11_ranklist`, `C11_defined`
* **C12** STAR runoff (proved): `C12_star_runoff`, `C12_star_total`
* **C13** STAR abstentions account for every ballot (proved): `C13_star_abstentions`
* **C14** --add-scores fills in ratings without altering existing data (proved): `C14_add_ratings`, `C14_idempotent`
* **C15** Scaled scores add up to the target (proved): `C15_scaled_scores`, `C15_zero_total`, `C15_defined`

### C16, C17, C18, C19, C20, C21, C22, C23, C24, C25, C26, C27

* files: IrvModel, IrvFacts, IrvStrict, IrvTrace, IrvCriteria, PropsIrv
* model: irvtally.py with oracles for random.choice and set order, fuel for the recursion
* proof: induction on rounds with invariants; trace of rounds; two-run bisimulation for C23; refutation witnesses
* **C16** IRV always terminates with an answer (proved): `C16_irv_always_answers`, `C16_no_candidates`
* **C17** IRV conserves ballots in every round (proved): `C17_irv_conserves_ballots`
* **C18** IRV candidate bookkeeping (proved): `C18_irv_candidate_bookkeeping`, `C18_irv_eliminated_stay_out`
* **C19** IRV stops exactly on a strict majority or a complete tie (proved): `C19_irv_stops_on_majority_or_tie`
* **C20** IRV majority criterion (proved): `C20_irv_majority_first_round`, `C20_irv_majority_criterion`
* **C21** IRV eliminates only last-placed candidates, and in batches only when safe (proved): `C21_irv_eliminates_last_place`
* **C22** IRV round tallies are true top-choice counts (proved): `C22_irv_tallies_are_top_choices`
* **C23** IRV depends on chance only where it says so (proved): `C23_irv_chance_only_where_reported`, `C23_lot_decides`
* **C24** IRV mutual majority (proved): `C24_irv_mutual_majority`, `C24_all_winners_in_majority_set_refuted`. Sole winner in S and some winner in S proved for all elections/schedules; 'every tied winner in S' refuted by a concrete three-way tie.
* **C25** A sole IRV winner is never the Condorcet loser (proved): `C25_sole_winner_not_condorcet_loser`
* **C26** IRV does not depend on the order of the votelines (proved): `C26_irv_line_order`, `C26_line_order_overvotes_refuted`. Full equality of results for strict ballots; the unrestricted claim is refuted by a concrete pair of adjacent overvoted lines that changes the winner.
* **C27** What the IRV round metadata figures mean (proved): `C27_irv_metadata_exact`, `C27_all_eliminated_exact`, `C27_bottomtie_exact`, `C27_has_tie_exact`, `C27_winnerstr_exact`, `C27_countedqty_refuted`, `C27_all_eliminated_refuted`, `C27_winner_listed_as_eliminated_refuted`, `C27_top_and_bottom_refuted`. Exact meaning proved; each of the readings suggested by the names is refuted by a concrete election.

### C28, C29, C30, C31, C32, C33, C34, C35, C36, C37, C38, C63

* files: ParserModel, RegexFacts, ParserFacts, ParserPrefs, ParserRender, ParserFile, ParserText, ParserLines, PropsParser, PropsRepeat
* model: core.py reader over code points, line regexes run by the backtracking engine
* proof: invariants over lines for all texts; exact evaluation lemmas for written forms through regex soundness/completeness
* **C28** Parsed ballot count equals the votes parsed (proved): `C28_ballotcount`
* **C29** Parsed models are well-formed (proved): `C29_well_formed`, `C29_first_rank_refuted`, `C29_first_rank_partial`, `C29_lines_independent`, `C29_first_rank_exact`. Well-formedness and line independence proved for all texts; 'some candidate has rank 1' refuted (repeated name), proved when names are distinct (_partial), and C29_first_rank_exact says for every line, repeated names or not, when it holds.
* **C30** Files without votelines are rejected (proved): `C30_rejected`, `C30_empty_text`, `C30_exceptions`, `C30_accepted`
* **C31** Comments never change the votes (proved): `C31_comments_ignored`, `C31_storecomments`
* **C32** Voter ids (proved): `C32_voter_ids`, `C32_voter_id_syntax`
* **C33** Ranking syntax means ranking (proved): `C33_ranking`, `C33_repeated`
* **C34** Rating syntax means ranking by rating (proved): `C34_rating_list`, `C34_rank_order_is_rating_order`
* **C35** --cleanws forgives exactly leading whitespace (proved): `C35_cleanws`, `C35_no_indentation`
* **C36** Whatever parses can be tallied (proved): `C36_parsed_is_tallyable`, `C36_parsed_can_be_tallied`
* **C37** Which candidates written on a voteline are kept (proved): `C37_quoted_candidate_refuted`, `C37_written_candidates_kept`. Refuted for quoted candidates without rating; proved for every bare, bracketed or rated form.
* **C38** Metadata lines (proved): `C38_metadata_line`
* **C63** Candidate lines (proved): `C63_candidate_line`, `C63_bracketed_token_refuted`. Proved for simple tokens/names; the bracketed-token form is refuted.

### C39, C40, C41

* files: WriterModel, RoundtripFacts, RoundtripFile, RoundtripParsed, PropsRoundtrip
* model: ABIF writer and ranklist
* proof: print-then-parse by induction; every parsed model is shown fit for writing; each condition shown necessary by a counterexample
* **C39** ABIF round trip preserves the election (proved): `C39_abif_roundtrip`, `C39_ratings`, `C39_same_table`, `C39_same_counts`, `C39_same_pairwise`, `C39_same_scores`, `C39_metadata`
* **C40** ABIF round trip for arbitrary parsed models (proved): `C40_parsed_roundtrip`, `C40_order_refuted`, `C40_name_refuted`, `C40_candidate_lost_refuted`, `C40_comma_refuted`. C40_parsed_roundtrip: every parsed text under the stated conditions; each condition is shown necessary by a _refuted theorem.
* **C41** ranklist_from_jabmod_voteline orders by preference (proved): `C41_by_rank`, `C41_by_rating`, `C41_stored_order`, `C41_empty`, `C41_string_ratings_refuted`, `C41_mixed_ratings`

### C42, C43

* files: NameqModel, UrlText, UrlFacts, NameqFacts, PropsNameq
* model: nameq.py, quote_plus / parse_qs with UTF-8
* proof: codec round trip; induction over lines
* **C42** nameq round trip (proved): `C42_written`, `C42_roundtrip`, `C42_same_tally`
* **C43** nameq ballot count (proved): `C43_every_line_counted`, `C43_kept`, `C43_only_bad_ranks_fail`

### C44, C45

* files: WriterModel, JsonText, JsonFacts, ConsolidateFacts, CsvFacts, PropsConvert
* model: consolidation keyed by json.dumps(sort_keys), csv.DictWriter rows
* proof: injectivity of json.dumps; induction; csv text read back
* **C44** Consolidation merges exactly the identical votelines (proved): `C44_exact`, `C44_same_line`, `C44_distinct`, `C44_counts_preserved`, `C44_total_preserved`, `C44_same_matrix`, `C44_idempotent`
* **C45** csvrank output has one row per ballot (proved): `C45_table`, `C45_row_count`, `C45_row`, `C45_fresh_ids`, `C45_bad_line`

### C46, C47

* files: DebtallyModel, ImportFacts, DebtallyFacts, PropsImport, PropsImportMore
* model: debtally.py
* proof: exact evaluation lemma per line kind, then the ABIF reader on the result
* **C46** Debian tally conversion preserves each vote (proved): `C46_votes_preserved`, `C46_undeclared_option`, `C46_ranks`, `C46_end_to_end`, `C46_colon_refuted`. Exact output text and end-to-end reading proved for well-formed sheets (names without colon-blank, distinct abbreviations end to end); IndexError for undeclared options; loss of text before the last colon-blank of a name refuted the unrestricted claim. Marks are the ranks 1-9; ranks above the number of options are ignored by the code (and by vote_tiers_of).
* **C47** Debian option tokens are short and distinct (proved): `C47_short_tokens`, `C47_distinct_abbreviations`, `C47_clash_resolved`, `C47_distinct_refuted`, `C47_checksum`. Length and alphabet proved for every hash; distinctness proved when the abbreviations differ, refuted in general for every hash ('A b' and 'Ab').

### C48, C49

* files: PreflibModel, ImportFacts, PreflibFacts, PropsImport
* model: preflib.py
* proof: exact evaluation lemma per line kind, then the ABIF reader on the result
* **C48** PrefLib conversion preserves each ranking (proved): `C48_rankings_preserved`, `C48_out_of_range`, `C48_zero_refuted`, `C48_numbering_refuted`. Exact output proved for files that declare alternatives in order; IndexError for large numbers; two findings refuted: number 0, and numbers declared out of order.
* **C49** PrefLib to tally, end to end (proved): `C49_end_to_end`, `C49_comma_refuted`. End to end through the ABIF reader, for names of ordinary characters distinct without spaces; commas in names refuted.

### C50, C51, C52

* files: SftxtModel, SftxtFacts, SftxtFile, PropsSftxt, PropsSftxtFile
* model: sftxt.py fixed-width reader, grouping, tokens, jabmod
* proof: grouping invariant over the stream of lines; field extraction by arithmetic on offsets
* **C50** SF ballot images are grouped into ballots without loss (proved): `C50_grouped`, `C50_grouping_unique`, `C50_bad_line`, `C50_line_cases`, `C50_no_lines`. Full statement over every sequence of lines; the division into runs is proved unique; each error case included.
* **C51** SF conversion counts every ballot once (proved): `C51_ballots_counted`, `C51_only_acceptable`, `C51_tokens`, `C51_tokens_listed`, `C51_duplicate_refuted`, `C51_distinct_tokens_refuted`. Success characterised in both directions (C51_ballots_counted, C51_only_acceptable); token table and token alphabet proved; duplicate marks and 20-character collisions refuted with counterexamples.
* **C52** Fixed-width fields are read exactly (proved): `C52_no_text`, `C52_fields_exact`, `C52_stream_exact`, `C52_lossless`, `C52_image_lines`, `C52_length_refuted`. Every specification and text; the declared-length check is refuted.

### C53, C54, C55

* files: UtilModel, PropsUtil, PropsEdges
* model: util.py token shortening; clean_dict; _modify_jabmod on nested values
* proof: structural induction
* **C53** Token shortening (proved): `C53_exact`, `C53_squeezed_unique`, `C53_length_and_characters`, `C53_idempotent`, `C53_same_as_sftxt`, `C53_characters_refuted`, `C53_injective_refuted`. exact description, length, alphabet, idempotence; alphabet with a final newline and injectivity are refuted
* **C54** clean_dict makes results JSON-serialisable and changes nothing else (proved): `C54_kept`, `C54_nothing_new`, `C54_no_sets`, `C54_idempotent`, `C54_serialisable`, `C54_tuple_refuted`. nested values as trees; exact condition for the result to be serialisable; sets inside tuples are refuted
* **C55** _modify_jabmod updates exactly the addressed value (proved): `C55_exceptions`, `C55_written`, `C55_others_unchanged`, `C55_when`, `C55_negative_refuted`. nested values as trees (no aliasing); negative list positions refuted

### C56, C57

* files: DiagramModel, PropsDiagram
* model: vizelect.py node and edge lists; HTML and text pairwise tables as lists of cells
* proof: induction over rows/columns; each pair once
* **C56** Diagram edges match the matrix (proved): `C56_nodes`, `C56_edges`, `C56_arrows`, `C56_total`. what is handed to graphviz; rendering (and graphviz's port syntax in names with ':') not modelled
* **C57** HTML table shows each contest exactly once with correct figures (proved): `C57_rows`, `C57_contests`, `C57_remark`, `C57_daggers`, `C57_dagger_refuted`, `C57_texttable`, `C57_textgrid`. cells, captions and widths exact for every tallyable election; the dagger rule as documented is refuted, the actual one proved (C57_daggers); rendering of BeautifulSoup and texttable not modelled, except that appending an element moves it

### C58

* files: FetchModel, PropsFetch
* model: fetch_web_items over an abstract file map, crash after any step, any refusals and replies, any number of runs
* proof: step invariant over histories
* **C58** Re-running a fetch is safe (proved): `C58_existing_files_kept`, `C58_history`, `C58_second_run_idle`, `C58_crash_leaves_prefixes`, `C58_downloads_exact`, `C58_crash_repair_refuted`, `C58_failure_reported_refuted`. Steps: makedirs, request, open, one byte at a time; every step may be refused by the OS and a crash may come after any step; server replies arbitrary and may depend on time; path resolution is an arbitrary function. stderr messages not modelled; several processes at once are C99.

### C59

* files: PosixModel, ExtfileModel, PosixFacts, PropsExtfile, PropsExtfileMore
* model: process_extfilelist on a tree with directories and links
* proof: frame lemmas for path resolution; induction over the entries
* **C59** Each download becomes its own ABIF file (proved): `C59_directory_input`, `C59_not_utf8`, `C59_sequence`, `C59_own_format`, `C59_stops`, `C59_unknown_format`, `C59_links`, `C59_links_rerun`, `C59_converted`, `C59_failed`, `C59_missing_input`, `C59_archive_member`, `C59_archive_sequence`, `C59_line_ends`, `C59_own_format_refuted`, `C59_link_in_subdirectory_refuted`, `C59_missing_download_refuted`, `C59_same_place_refuted`, `C59_overwrites_download_refuted`, `C59_link_dots`, `C59_link_directory`. POSIX path resolution with directories and symbolic links modelled (PosixModel), also os.makedirs, os.path.relpath, pathlib, UTF-8 and universal newlines; the tar reader and SHA1 are parameters; refusals by the operating system and concurrent processes not modelled; interrupted runs are C100.

### C60

* files: ConvertModel, PropsWidj, PropsEdges
* model: widjfuncs.py
* proof: case analysis
* **C60** Electowidget conversion (proved): `C60_dropped_names`, `C60_refuted`, `C60_if_defined`. C60_refuted: the real module always raises NameError, on every input; C60_if_defined: what it would do if ABIF_VERSION were defined.

### C61

* files: CliModel, PropsCli
* model: abiftool.py main after argparse
* proof: case analysis, induction over modifiers and file names
* **C61** What the command line reads and prints (proved): `C61_format`, `C61_unsupported`, `C61_dash_needs_format_refuted`, `C61_missing_file`, `C61_failure_status_refuted`, `C61_last_file`, `C61_all_files_refuted`, `C61_stdin`, `C61_stdin_sftxt`, `C61_modifier_order`, `C61_text_sections`, `C61_section_order`, `C61_default_modifiers`, `C61_paircountjson`, `C61_paircountjson_refuted`, `C61_jabmod`, `C61_conversions`, `C61_winlosstiejson`, `C61_candlist`. argparse itself, -d, and rendering by graphviz, BeautifulSoup and texttable are parameters; IRV and STAR JSON encodings are parameters.

### C62

* files: LogModel, PropsLog
* model: devtools.py log singleton as a state machine over call histories
* proof: induction over the history
* **C62** The log file (proved): `C62_log`, `C62_silent`, `C62_one_open`, `C62_misconfiguration_refuted`, `C62_top_level_refuted`, `C62_after_close`. environment (variable, directories, whether open succeeds) may change from call to call; pformat and the frames are parameters; stdio buffering not modelled since every method flushes.

### C64

* files: JsonText, JsonParse, JsonParseFacts, JabmodJson, PropsJson
* model: json.dumps (any indent) and json.loads
* proof: structural induction: parse (print v) = v
* **C64** A jabmod survives its JSON file (proved): `C64_loads_dumps`, `C64_total`, `C64_jabmod`, `C64_jabmod_any_form`, `C64_distinct`, `C64_paircount`, `C64_null_comment`. the standard library's json.dumps / json.loads modelled without floats; key order fixed by json_of_jabmod, any order by C64_jabmod_any_form; null and absent members not distinguished.

### C65

* files: ConvertModel, PropsConvertText
* model: convert_text_to_abif
* proof: composition of C39-C40, C46, C49, C51, C64
* **C65** Converting any supported text to ABIF keeps the election (proved): `C65_unsupported`, `C65_missing_input`, `C65_widj_refuted`, `C65_arguments`, `C65_abif`, `C65_jabmod`, `C65_preflib`, `C65_debtally`, `C65_sftxt`. Composes C40, C46, C49, C51, C64 with the writer and reader; candidate names or tokens must be free of the characters ABIF cannot carry (stated as hypotheses); add_ratings=false for ABIF input, as the code passes nothing else to the other readers.

### C66, C67

* files: IrvModel, IrvMonotone, PropsIrvMore
* model: irvtally.py on two related elections
* proof: simulation between the two counts, round by round; refutation witnesses
* **C66** IRV: what a ballot says below a candidate cannot affect that candidate (later-no-harm, later-no-help) (proved): `C66_later_no_harm`, `C66_later_no_help`. Strict ballots (no equal ranks), same oracle in both counts; the whole result record is shown equal.
* **C67** IRV: additional first places do not hurt the winner; monotonicity and participation fail (proved): `C67_more_first_places`, `C67_monotonicity_refuted`, `C67_participation_refuted`. C67_more_first_places is the positive claim (strict ballots, no tie for last place before the final round); C67_monotonicity_refuted and C67_participation_refuted are machine-checked counterexamples to the stronger claims a user might expect.

### C68

* files: PairwiseModel, PropsCopeMore
* model: pairwise.py on two related elections
* proof: pointwise comparison of matrices; permutation and renaming lemmas
* **C68** Copeland and the pairwise table respond sensibly to changes of the ballots (proved): `C68_monotone`, `C68_neutral`, `C68_candidate_order`, `C68_homogeneous`, `C68_joint_count`, `C68_reversal_refuted`, `C68_reversal_without_ties`. On tallyable models (C01). C68_reversal_refuted is a machine-checked counterexample caused by ties earning a full point; C68_reversal_without_ties is the positive form.

### C69

* files: ScoreModel, PropsScoreMore
* model: scorestar.py on two related elections
* proof: as C68
* **C69** Score and STAR respond sensibly to changes of the ballots (proved): `C69_joint_score`, `C69_consistency`, `C69_participation`, `C69_score_monotone`, `C69_star_monotone`, `C69_star_condorcet_loser`, `C69_line_order`, `C69_neutral`. On scorable models (C10); the winner is the first of sr_ranklist, ties resolved by table order as the code does. star_wins: finalist with strictly more runoff votes.

### C70

* files: SpecfileModel, SpecfileFacts, PropsSpecfile
* model: fetchmgr.py main, process_fetchspec, git functions and downloads on the tree of C59, joined to the conversion
* proof: state monad with frame lemmas; joins C59 and C65 end to end
* **C70** A whole run of fetchmgr.py (proved): `C70_removed_directory`, `C70_entry`, `C70_nothing_to_update`, `C70_missing_fetchspec`, `C70_unreadable_fetchspec`, `C70_invalid_fetchspec`, `C70_clone`, `C70_pull`, `C70_git_or_web`, `C70_nothing_overwritten`, `C70_downloads`, `C70_no_second_download`, `C70_end_to_end`, `C70_one_file`, `C70_no_arguments`, `C70_in_order`, `C70_abif_option_ignored`, `C70_plain_entry`, `C70_failed_clone_refuted`, `C70_dot_overwrites_refuted`. Server and git are oracles depending on the number of earlier events; wrong-typed JSON members raise TypeError up front (the code would raise it later); POSIX tree without refusals by the OS. The downloads part needs complete entries (url/localcopy or urls/localcopies of equal length) whose local path does not end its directory part in '/.' (fit_path); that condition is shown necessary by C70_dot_overwrites_refuted.

### C71

* files: SftxtMainModel, PropsSftxtMain
* model: sftxt.py main after argparse and both dump functions, over a map of files; the ballots as a lazy generator
* proof: generator lemma joining C50; parse_qs and json.loads inverses; C44 idempotence
* **C71** The San Francisco script (proved): `C71_empty_name`, `C71_json`, `C71_json_read_back`, `C71_imagelines`, `C71_urlencoded`, `C71_csv96`, `C71_abif`, `C71_jabmod`, `C71_as_abiftool`, `C71_outfile`, `C71_unknown_format`, `C71_missing_file`, `C71_contestid_refuted`, `C71_fourth_mark_refuted`. Files are a map from names to text (newlines translated); two names are two files and the name '-' is not used. The record formats are proved for files whose image lines of the contest all stand for votes (usable); what a bad line does to the generator is C50_bad_line. The urlencoded statement needs names that are Unicode text other than the word None, which cannot be told from nobody.

### C72

* files: IrvModel, ScoreModel, PairwiseModel, PropsReport
* model: The three report functions as text, line by line; specification: the list of lines.
* proof: The rounds' text is the unlines of the specified lines by induction on the rounds; the figures come from C17, C22, C10, C11 and C13.
* **C72** The text reports say what was counted (proved): `C72_irv_report`, `C72_irv_figures`, `C72_score_report`, `C72_star_report`, `C72_copeland_tie_refuted`, `C72_counted_line_refuted`. Printed numbers are decimal texts of integers (votes are whole numbers in this model).

### C73

* files: ResultsJson, JsonText, JsonParse, PropsResults, CliModel, PropsCliMore
* model: The result dictionaries as JSON values with their keys in order, printed by the model of json.dumps and read by the model of json.loads; sets in an arbitrary order.
* proof: Every string is text and no key is repeated (names of rounds are candidates by induction on the rounds), so loads(dumps(x)) = x by C64; the figures come from C10-C13 and C22; whole runs through C36.
* **C73** The JSON form of IRV, score and STAR results can be read back (proved): `C73_cli_irv`, `C73_cli_star`, `C73_cli_json_refuted`, `C73_irv_json`, `C73_irv_json_figures`, `C73_score_json`, `C73_star_json`. Names must be Unicode scalar values (C64). The order of a Python set is an arbitrary permutation. Floats do not occur in these results.

### C74

* files: HtmlModel, PropsHtml, CliModel, PropsCliMore
* model: The tree handed to BeautifulSoup; prettify is any text that puts blanks between the escaped pieces; specification: a scanner for tags and character references.
* proof: Scanning a laid out page gives the pieces back (induction on the pieces, adjacent texts excluded); the pieces' tags are in a fixed list; contents from C57.
* **C74** The HTML page shows the results and nothing of it can be mistaken for markup (proved): `C74_cli_html`, `C74_heading_values`, `C74_page`, `C74_results_shown`, `C74_heading`, `C74_star_page`, `C74_star_page_refuted`. BeautifulSoup is taken to escape &, < and > in strings, to write attributes as given and to add or drop blanks only around tags and strings (relation pretty in HtmlModel); the diagram embedded with -m svg is not covered by the text and tag theorems. The size check of html_snippet is taken to pass: it measures the outer dictionary only.

### C75

* files: HtmlModel, PropsHtml, CliModel, PropsCliMore
* model: splitlines, the two substitutions and join as text functions; the drawing is a parameter.
* proof: Induction on the line with a count of the bars so far.
* **C75** Retouching a text table changes only the rule below the header and two bars per line (proved): `C75_cli_tables`, `C75_table`, `C75_tokens_refuted`. What texttable draws is a parameter.

### C76

* files: ScriptsModel, PropsScripts
* model: The main functions of the modules, over the surroundings of CliModel; newline translation of text files as a text function.
* proof: Unfolding both programs to the same library calls; for the pipes, splitlines is invariant under newline translation and an added final newline changes nothing; JSON with trailing white space parses.
* **C76** The library's scripts print what the command line tool prints, and their output can be piped (proved): `C76_irvtally`, `C76_missing_refuted`, `C76_unreadable`, `C76_pairwise`, `C76_scorestar`, `C76_scorestar_nothing_refuted`, `C76_pipe_importers`, `C76_pipe_jabmod`, `C76_html_pairwise`, `C76_html_scorestar`, `C76_copedot`, `C76_copedot_json`, `C76_core_prefs`, `C76_core_rest`, `C76_help`. What graphviz, texttable and BeautifulSoup do, json.dumps of floats and str() of a list are parameters.

### C77

* files: ScriptsModel, PropsScripts
* model: The fetchspec as JSON; yaml.dump is a parameter.
* proof: Induction on the archive entries; the regular expression as a suffix test followed by the last path part.
* **C77** configtool lists every archive entry of a fetchspec once, in order (proved): `C77_mayor`, `C77_list`, `C77_other`, `C77_missing`, `C77_fix_tag_refuted`, `C77_fix_tag`. yaml.dump is a parameter.

### C78

* files: PropsChars
* model: The reader model as it is.
* proof: An invariant 'all characters satisfy P' through every function of the reader, for arbitrary P; the theorem instantiates P with 'occurs in the file' and 'is a Unicode scalar value'.
* **C78** Reading a file makes up no characters, so what is read can always be stored (proved): `C78_characters`, `C78_names`, `C78_storable`. The converse (every character of the file is kept) is of course false and not claimed; C39-C41 say what is kept.

### C79

* files: PropsFiles
* model: The reader model as it is, with the tally models; the table of candidates is shown to be a fold over the lines.
* proof: The votelines of a file are those of its lines (C29), so a permutation of lines permutes them; the table is characterised by its lookups (last declaration, else mention), which makes it independent of the interleaving. Results then follow from the order theorems C03, C26, C68, C69 and determinism of the IRV trace.
* **C79** A file's election does not depend on the order of its lines, and joined files add up (proved): `C79_table`, `C79_mentions`, `C79_line_order`, `C79_same_results`, `C79_declared_first`, `C79_joined`, `C79_split`, `C79_irv_order_refuted`, `C79_star_order_refuted`, `C79_names_order_refuted`. Read with storecomments off. The provisos of the IRV and STAR parts are needed: C79_irv_order_refuted, C79_star_order_refuted, C79_names_order_refuted.

### C80

* files: PropsIrvSym
* model: The IRV model as it is; two runs on related inputs.
* proof: Renaming and scaling commute with every function of the count, by induction over rounds (no hypothesis on the ballots). Independence of set order comes from C23 applied twice around the identity order; candidate order from determinism of the trace. For the unlisted candidate the first round is compared case by case (tie, majority, candidates without votes), after which both counts continue alike.
* **C80** Instant runoff treats candidates alike and depends on proportions only (proved): `C80_neutral`, `C80_neutral_any_schedule`, `C80_homogeneous`, `C80_candidate_order`, `C80_unlisted_candidate`, `C80_candidate_order_lot_refuted`, `C80_unlisted_overvotes_refuted`, `C80_joint_refuted`. Renaming must keep the empty token empty (the count takes it for nobody). Provisos needed: C80_candidate_order_lot_refuted, C80_unlisted_overvotes_refuted, C80_joint_refuted.

### C81

* files: IrvEqual, PropsIrvEqual
* model: The IRV model as it is. The specification (has_own_rank, counted_choice, no_choice, first_shared, kept) uses only which candidates a line lists and which it prefers to which.
* proof: The while loop over reversed ranks is shown to find the end of the first group of equal ranks, so the recursion visits group after group; induction over it gives the candidate counted. Induction over the rounds carries the list of votelines still present. Two runs on line-wise equal ballots agree by induction over rounds.
* **C81** What instant runoff counts on ballots with equal ranks (proved): `C81_round_counts`, `C81_one_vote_each`, `C81_discards_exactly`, `C81_strict_is_usual`, `C81_same_ballots`. The skipped line after a discarded one is the behaviour of the code (deleting from the list being enumerated), not of the specification of overvotes: C81_unseen_line shows a ballot with a shared first place counted for its third choice.

### C82

* files: RoundtripExact, PropsStable, PropsPipe
* model: Reader and writer as modelled for C28-C40; the run of abiftool -t abif of C61.
* proof: The two forms of a preference text (sorted by rating, sorted by rank) are computed exactly; the reader's result of such a text is sorted the same way, so sorting it again changes nothing and the same text comes out. The candidate table: merging the listed tokens into the simple part of the table is idempotent. Metadata: a pass is a fold of dictionary updates, computed once and twice.
* **C82** Writing ABIF settles after one pass (proved): `C82_cli`, `C82_settles`, `C82_ballots_settle`, `C82_settles_later`, `C82_first_pass_refuted`, `C82_quoted_rating_refuted`. The reader stores the ballot count written in the text under ballotcount_abif_metadata, which the next writing prints too: C82_first_pass_refuted. Ratings behind quoted names are stored as text and printed unchanged, read back as numbers: C82_quoted_rating_refuted.

### C83

* files: PropsPipe
* model: The command line model of C61 for both programs of the pipe; the second reads what the first printed, with universal newlines.
* proof: C40 gives line-wise equal ballots; C81_same_ballots, C39_same_scores and the pairwise part of C40 give equal results, with bounds on ranks from the length of the text; the outputs are functions of these results. The candidate on which abifmodel_has_ratings looks may change, hence the condition on the first voteline.
* **C83** abiftool -t abif in front of a pipe changes no result (proved): `C83_same_results`, `C83_pipe`, `C83_star_refuted`, `C83_ratings_refuted`, `C83_brackets_refuted`. Refutations for each condition: C83_star_refuted, C83_ratings_refuted, C83_brackets_refuted.

### C84

* files: IrvCounts, PropsCounts
* model: The counts of C01, C10-C15 and C16-C27, consolidate of C44 and main of C61.
* proof: Any sum over the ballots of a quantity that depends on the marks only is regrouped by ways of marking (one representative for each that occurs in either election), so it is the same for both. The pairwise cells, scores and - round by round, since the eliminated candidates are the same - the IRV tallies are such sums; the two runs of the IRV loop are then equal by induction over the rounds.
* **C84** Only the number of ballots of each kind matters; consolidating changes no result (proved): `C84_only_counts`, `C84_consolidate`, `C84_split`, `C84_overvotes_refuted`, `C84_cli`, `C84_cli_alone_refuted`. Refuted for IRV with equal ranks (C84_overvotes_refuted) and for the text report when consolidate is the only modifier (C84_cli_alone_refuted).

### C85

* files: PropsEnding
* model: main of C61 with every writer and report it calls.
* proof: For each output the model read from the text is shown to be in the writer's domain (C36, C78, C84 for the consolidated one) and the writer total there, or to fail exactly on the stated condition; the sections of the text report are then combined in order. The statement compares with a function written for this purpose (complaint).
* **C85** How a run on an ABIF text ends: which outputs can fail, when, and with what (proved): `C85_ending`, `C85_always`, `C85_unreadable`. The reasons all occur (C85_reasons). Assumes that texttable draws a table with a header in at least four lines (draws_tables), which it does: border, header, line, border.

### C86

* files: PropsFormats
* model: main of C61 with the readers of C43, C46, C49 and C51 and the tally of C01.
* proof: Each reader's theorem gives the votelines; their ranks are shown to be below the tally's limit, the names to be text, and the counts to be those of the file's own records by a weighted sum over corresponding records. The printed JSON is read back by the parser of C64.
* **C86** The counts abiftool prints for PrefLib files, Debian tally sheets, nameq files and San Francisco files (proved): `C86_preflib`, `C86_debtally`, `C86_nameq`, `C86_sftxt`, `C86_sftxt_one_file`, `C86_pipe_nameq`. For San Francisco files the rank bound comes from the width of the field (three characters). An empty line that ends a nameq file made by shell redirection counts as a ballot (C86_pipe_nameq).

### C87

* files: PropsEndingMore
* model: main of C61, with render_unnamed: what abiftool does with a candidate whose name is None.
* proof: Each reader is shown to give a usable model in the sense of C85 (ranked, scorable, countable by IRV, printable), so that C85's analysis of the outputs applies; the readers' own failures are collected by an induction over their loops.
* **C87** Options and endings of runs on PrefLib files, Debian tally sheets, nameq files and San Francisco files (proved): `C87_options`, `C87_preflib`, `C87_debtally`, `C87_nameq`, `C87_sftxt`, `C87_sftxt_html`. The sizes are bounded by sys.maxsize as in C85. The order of the keys in the JSON of -t jabmod is C96. With -f sftxt, -t html and -t html_snippet always fail in practice (C87_sftxt_html).

### C88

* files: PropsJabmodOut
* model: main of C61 with candidates that may have a null name (name_nulls, null_named in ConvertModel; render_unnamed in CliModel).
* proof: Every reader is shown to give a storable election (C64); dumps and loads are inverse (C64), null names survive, and main depends on the input only through the election and its nameless candidates.
* **C88** An election saved with -t jabmod is the same election for every later run (proved): `C88_written`, `C88_read_back`, `C88_same_election`, `C88_pipe`. For jabmod and widj input, that the texts in the election are made of Unicode scalar values is a hypothesis on the election, not on the file (a JSON escape can name a surrogate). The order of the keys inside a voteline is that of JabmodJson.

### C89

* files: StackModel, PropsStack
* model: The two functions over a list of frames, the innermost first, as inspect.getouterframes gives them; Python indexing and slicing with negative and out-of-range bounds.
* proof: Slices are shown equal to a place-by-place specification by induction on the list.
* **C89** The names of the calling functions in the developer's tools (proved): `C89_stackfunc`, `C89_callstackstr`, `C89_default`. The stack itself (inspect.currentframe, inspect.getouterframes) is a parameter. devtools.py main is not modelled: it calls a function with a keyword it does not have and always ends with TypeError.

### C90

* files: PropsNameless
* model: render_unnamed in CliModel: what happens at the places where a name that is None does not go through an f-string.
* proof: Two runs are compared, one on the election and one on the same election with the name None; the JSON texts are parsed back with loads_dumps (C64).
* **C90** What the results show for a candidate without a name (proved): `C90_others`, `C90_irv`, `C90_star`. For the IRV and STAR JSON the election must be one these methods can count (irv_election, scorable and tallyable), which every election read from one of the formats but jabmod and widj is (C36, C87).

### C91

* files: ArgvModel, PropsArgv, PropsArgvFlags
* model: Python's argparse for the arguments that abiftool.py declares: _parse_optional, _get_option_tuples, _parse_known_args with consume_optional and consume_positionals, choices and type=int; then main of CliModel, -d and the exit status.
* proof: C91_standard by induction over the options, with one lemma for each way to write an option; C91_accepted and C91_unknown by an invariant of the loop over all command lines.
* **C91** The command line means what it says (proved): `C91_standard`, `C91_dashes`, `C91_bad_choice`, `C91_no_files`, `C91_two_groups`, `C91_accepted`, `C91_unknown`, `C91_help`, `C91_status`, `C91_run`, `C91_debug_json_refuted`, `C91_switch_value`. argparse is part of the standard library; its source in Python 3.11 is what is modelled, and the model agreed with it on 4500 random command lines. C91_debug_json_refuted shows that -d spoils JSON output.

### C92

* files: PropsWithdraw
* model: IrvModel (the count with its schedule); the election restricted to some candidates is the specification `only`.
* proof: The state of a strict count at any round is the original ballots without the eliminated candidates (IrvStrict), which is the restricted election; trace_again rebuilds the rest of the trace from there with the candidates in another order and rounds numbered from 1; C23 removes the choice of schedule when no lot is drawn.
* **C92** IRV: candidates already eliminated might as well not have run (proved): `C92_withdrawn_lots`, `C92_withdrawn`, `C92_overvotes_refuted`. C92_overvotes_refuted is the counterexample with equal rankings.

### C93

* files: PropsClones
* model: IrvModel; the smaller election is `only` of C92.
* proof: Induction over the rounds of the larger count with the invariant that the candidates left in the smaller one are the others and, while a clone is left, k: tallies of the others agree, k has at least the tally of every clone, the totals agree. Where the smaller count is decided first, k keeps its majority when one more candidate goes.
* **C93** IRV: similar candidates do not split the vote (independence of clones) (proved): `C93_clones`, `C93_nonvacuous`, `C93_complete_tie_refuted`. C93_complete_tie_refuted is the exception; C93_nonvacuous a vote split that does no harm.

### C94

* files: PropsAlternatives
* model: PairwiseModel, ScoreModel; `only` of C92.
* proof: Preferences and ratings on a struck ballot are those of the ballot; the exactness theorems C01, C06, C08, C10-C12; a stable sort commutes with filtering.
* **C94** What the withdrawal of candidates does to the pairwise table, Copeland, score and STAR (proved): `C94_pairwise`, `C94_pairwise_cells`, `C94_copeland_dominated`, `C94_condorcet`, `C94_score`, `C94_star`, `C94_copeland_refuted`, `C94_star_refuted`. C94_copeland_refuted and C94_star_refuted are the exceptions.

### C95

* files: PropsLimits
* model: LimitsModel: the count of IrvModel with the quotient rounded to binary64 and with a number of nested calls.
* proof: Induction over the rounds of the exact count: totals never grow, so rounding is the identity; a family of elections with one elimination per round.
* **C95** IRV: what floats and the limit on nested calls can do to a count (proved): `C95_limited`, `C95_depth_refuted`, `C95_float_refuted`, `C95_nonvacuous`. C95_depth_refuted and C95_float_refuted show that both limits can be reached. Frames used by functions other than the count itself are not modelled: `depth` is what is left for the count.

### C96

* files: PropsObj
* model: ObjModel: the readers and consolidation on dictionaries with any keys in insertion order; main and the command line around them.
* proof: A simulation between the program on dictionaries and the program on records, reader by reader, then through main; the printed text is read back with the JSON parser.
* **C96** -t jabmod prints this object: its keys, their order and its values (proved): `C96_abif`, `C96_nameq`, `C96_sftxt`, `C96_consolidate`, `C96_run`, `C96_printed`, `C96_through`, `C96_not_json`, `C96_again`, `C96_jabmod_consolidated`, `C96_program`. The record model of the other properties drops keys that the program does not use and null comments; main_exact keeps them, and C96_through, C96_again and C96_not_json describe what happens to a jabmod file. The statement about reading back needs an object without lone surrogates.

### C97

* files: PropsFloats
* model: FloatModel: scaled_scores with every operation rounded to the nearest 53-bit number, ties to even, as an axiom-free function on fractions.
* proof: The rounding is shown to be the one of IEEE 754 (a float, none nearer, ties to even); error bounds compose over the roundings of the loop by induction; order is kept because rounding is monotone and two different integers below 2^52 are further apart than the error.
* **C97** Scaled scores as floats: what rounding can and cannot do (proved): `C97_float`, `C97_scaled`, `C97_range`, `C97_total_refuted`, `C97_nonvacuous`. The exponent of the model's floats is unlimited; C97_range shows that all numbers of a run stay between 2^-53 and 2^54, so the limits of binary64 are not met. C15 states the same computation with exact fractions. How the floats are printed (repr) is not modelled.

### C98

* files: PropsScriptArgv, PropsScriptSpelled
* model: ArgparseModel: parse_args of the standard library for parsers with one-word, + and * positionals and flag, value and help options; ScriptArgvModel: each script's parser and what main does with the result.
* proof: A command line is described from outside by a relation between what is meant (settings and words in order) and the words that say it; that argparse reads each such line back is proved by induction on it, errors by induction on the words before the faulty one.
* **C98** Command lines of the other scripts (proved): `C98_file_scripts`, `C98_irvtally`, `C98_copedot`, `C98_sftxt`, `C98_core`, `C98_fetchmgr`, `C98_abif_switch_refuted`, `C98_ambiguous`, `C98_unknown`, `C98_help`, `C98_bad_choice`, `C98_dashes`, `C98_accepted`, `C98_refused`, `C98_switch_value`, `C98_irvtally_spelled`, `C98_copedot_spelled`, `C98_sftxt_spelled`, `C98_core_spelled`. argparse is modelled as in Python 3.11, from its documentation and source, for the features these parsers use. The usage and help texts are parameters. textoutput.py run as a script calls a main that does not exist, and is not covered.

### C99

* files: PropsConcur
* model: ConcurModel: the functions of FetchModel as programs that stop at every system call, and an interleaving semantics for any number of them on one file system; a write is one byte at an offset. C99_alone relates one process alone to FetchModel.
* proof: What a process does is bounded by a predicate on its program along all answers (what it has found missing, found or made), proved through the functions; an invariant over all processes ties it to the disk; termination by the programs' structure.
* **C99** Several fetches at once (proved): `C99_alone`, `C99_existing_files_kept`, `C99_contents`, `C99_all_ended`, `C99_nobody_fails`, `C99_every_schedule_ends`, `C99_together_succeed`, `C99_makedirs_race_refuted`, `C99_end_means_complete_refuted`. File objects are not flushed in one piece: each byte is a step, and every interleaving of larger writes is among these schedules. Each os.makedirs is one step, so a race between two os.makedirs in the middle of a chain of parents is not covered. Processes that use gitrepo or abif_archive entries are not in this model.

### C100

* files: PropsCrash, PropsCrashFresh
* model: CrashModel: the functions of ExtfileModel with the list of all trees they pass through; a file is emptied and then grows byte by byte. C100_same_run: result and final tree are those of ExtfileModel.
* proof: An invariant (off the outputs nothing has changed; each output is begun) that every intermediate tree of a run started in a tree with the invariant has, by induction over the entries; the inputs are not outputs, so a rerun reads what the first run read.
* **C100** An interrupted conversion is repaired by running it again (proved): `C100_same_run`, `C100_repaired`, `C100_crash_points`, `C100_half_file_refuted`, `C100_first_run`. C100_repaired: the ABIF directory is there at first; C100_first_run: it is not, nor perhaps are directories above it. No input is an output (C59_same_place_refuted shows what happens otherwise). nameq_archive entries and outputs in subdirectories of the ABIF directory are in CrashModel and C100_same_run but not in the repair theorem. An operating system crash that loses earlier writes is not modelled: the file system keeps the order of the system calls.

## 3. Which parts of the code are modelled

By function of `/repo` (generated from the citations in the model; a function counts as modelled when the model cites at least 60 % of its lines; the rest of a modelled function is logging, docstrings and imports).

| file | modelled (in) | not modelled |
|---|---|---|
| abiflib/core.py | corefunc_init, convert_abif_to_jabmod, _process_abif_comment_line, _process_abif_metadata, _process_abif_candline, _get_emptyish_abifmodel, get_emptyish_jabmod, _add_ranks_to_prefjab_by_rating, _add_ratings_to_jabmod_votelines, _extract_candprefs_from_prefstr, _determine_rank_or_rate, _parse_prefstr_to_dict, _process_abif_prefline, convert_jabmod_to_abif, _abif_token_quote, ranklist_from_jabmod_voteline, _prefstr_from_ranked_line, _prefstr_from_ratings, _get_votelinestr_from_jabvoteline, _modify_jabmod, clean_dict, get_ranking_output_csv, consolidate_jabmod_voteline_objects, main, __init__, _modify_jabmod_internal (ArgparseModel, CliModel, Jabmod, JabmodJson, JsonText, ObjModel, ParserModel, ScoreModel, ScriptArgvModel, ScriptsModel, UrlText, UtilModel, WriterModel) |  |
| abiflib/debtally.py | _extract_option_names_from_tally_sheet, _extract_vline_rankings_from_tally_sheet, _trunc_sha_str, _short_token, _get_short_option_names, convert_debtally_to_abif, main (ArgparseModel, DebtallyModel, ScriptArgvModel, ScriptsModel) |  |
| abiflib/devtools.py | abiflib_test_log, abiflib_test_logblob, abiflib_stackfunc, abiflib_callstackstr, __new__, log, logblob, close_file (ArgvModel, LogModel, StackModel) | main |
| abiflib/html_output_common.py | get_abif_title, get_abif_desc, get_title_for_html, validate_abifmodel (CliModel, HtmlModel) |  |
| abiflib/html_output_pairwise.py | htmltable_pairwise_and_winlosstie, main, wltstr, get_winlosstie_sorted_keys (ArgparseModel, CliModel, DiagramModel, HtmlModel, ScriptArgvModel, ScriptsModel) |  |
| abiflib/html_output_scorestar.py | html_score_and_star, main (ArgparseModel, HtmlModel, ScriptArgvModel, ScriptsModel) |  |
| abiflib/irvtally.py | _eliminate_cands_from_votelines, _discard_toprank_overvotes, _get_valid_topcand_qty, _irv_count_internal, IRV_dict_from_jabmod, get_IRV_report, main (ArgparseModel, CliModel, IrvModel, Jabmod, LimitsModel, PairwiseModel, ScriptArgvModel, ScriptsModel) |  |
| abiflib/nameq.py | convert_nameq_to_jabmod, convert_jabmod_to_nameq (Jabmod, NameqModel, ObjModel) |  |
| abiflib/pairwise.py | pairwise_count_dict, winlosstie_dict_from_pairdict, full_copecount_from_abifmodel, calc_Copeland_scores, get_Copeland_winners, Copeland_report, main (ArgparseModel, PairwiseModel, ScriptArgvModel, ScriptsModel) |  |
| abiflib/preflib.py | _extract_alt_names_from_preflib_str, _extract_rankings_from_preflib_str, convert_preflib_str_to_abif, main (ArgparseModel, DebtallyModel, PreflibModel, ScriptArgvModel, ScriptsModel) |  |
| abiflib/scorestar.py | basic_score_result_from_abifmodel, enhanced_score_result_from_abifmodel, STAR_result_from_abifmodel, score_report, STAR_report, scaled_scores, abifmodel_has_ratings, main (ArgparseModel, CliModel, FloatModel, ScoreModel, ScriptArgvModel, ScriptsModel) |  |
| abiflib/sftxt.py | sftxt_read_fieldspec, read_sftxt_file, read_sftxt_blob, _sftxt_lookuplines2candpool, _sftxt_convert_to_ballots, _sftxt_dump_url_encoded, _sftxt_dump_csv1996fmt, _short_token, convert_sftxt_to_jabmod, main (ArgparseModel, CliModel, ConvertModel, DebtallyModel, ObjModel, ScriptArgvModel, SftxtMainModel, SftxtModel) |  |
| abiflib/textoutput.py | textgrid_for_2D_dict, texttable_pairwise_and_winlosstie, headerfy_text_file, wltstr (CliModel, DiagramModel, HtmlModel, ScriptsModel) |  |
| abiflib/util.py | convert_text_to_abif, candlist_text_from_abif, utf8_string_to_abif_token (ConvertModel, JabmodJson, JsonParse, UtilModel) |  |
| abiflib/vizelect.py | copecount_diagram (CliModel, DiagramModel) |  |
| abiflib/widjfuncs.py | convert_widj_to_jabmod, _map_widj_ballots (ConvertModel) |  |
| abiftool.py | gen_epilog, get_keys_from_dict_list, main, help_text (ArgvModel, CliModel, ConvertModel, JabmodJson, JsonParse, ObjModel, ScriptsModel) |  |
| fetchmgr.py | update_repository, checkout_repository, fetch_url_to_subdir, fetch_web_items, convert_files_to_abif, convert_nameq_tarball_to_abif_files, process_extfilelist, process_fetchspec, main (ArgparseModel, ConcurModel, CrashModel, ExtfileModel, FetchModel, PosixModel, ScriptArgvModel, SpecfileModel) |  |
| util/configtool.py | _fix_tag, make_nameq_based_file_list, convert_fetchspec_to_newdict, main (ArgparseModel, ScriptArgvModel, ScriptsModel) |  |
| util/copedot.py | main (ArgparseModel, ScriptArgvModel, ScriptsModel) |  |

## 4. Trusted base

* Coq 8.16.1's kernel (including `vm_compute` conversion, used for concrete witnesses and examples).
* Axioms: none. `Print Assumptions` follows every theorem of every `Props*.v` and prints "Closed under the global
  context" for each of them. (`vcheck` also lists seven names of `Coq.ssr.ssrunder`: they are fields of a module type
  of the standard library loaded transitively by its arithmetic tactics; no file here imports ssreflect and no theorem depends on them.)
* Only the standard library is used (`List`, `ZArith`, `NArith`, `QArith`, `Permutation`, `Lia`, `String` for literals).
* The faithfulness of the transcription: each definition cites the lines it models. The generated table
  `WordTable.v` (which code points match `\w`) comes from Python's own `unicodedata` through `tools/gen_wordtable.py`.
* The specification vocabulary (`Spec.v`, `ParserSpec.v`, `ImportSpec.v`, `SftxtSpec.v`, "Specification" sections).

## 5. Simplifications and what is not modelled

* Numbers: `int` is Z, without the 4300-digit limit of `int()`; floats do not occur in JSON input; `total/2` and
  scaled scores are exact, and Python's recursion limit is absent, except in `LimitsModel` (C95), which gives the IRV count
  with a rounded quotient and a limit on nested calls.
* Chance: `random.choice`, set iteration order and SHA-1 are arbitrary functions; theorems hold for all of them.
* JSON `null` values are treated as absent keys of a jabmod; `JsonParse` covers the full grammar but floats.
* Consolidation drops the comment/prefstr/voterid/nameq members of lines, as the code does for merged lines.
* `csv`: field names without quotes.
* C54/C55: nested values are trees with str/int keys.
* C58: path resolution is an arbitrary static function; the operating system's refusals and the server's replies are
  an oracle by step number; several processes at once are the subject of C99. C59 and C70: real path resolution with
  symbolic links (limit 40), no refusals by the operating system; the tar reader and SHA-1 are oracles.
* C70: wrong-typed members of a fetchspec raise TypeError before anything is done (the code raises it at first use);
  messages printed by `convert_files_to_abif` when it exits are not in the list of events.
* C91: argparse's messages, the help text and the 4300-digit limit of int() are not modelled. C61: the model starts from the parsed arguments (C91); what texttable and graphviz draw, lxml's reading of the svg, BeautifulSoup's layout and the
  order of sets are parameters (`CliModel.rendering`). C74 assumes of the layout only that it adds or drops blanks around tags and
  strings (`HtmlModel.pretty`).
* C56/C57: the cells, nodes and edges handed to graphviz, BeautifulSoup and texttable are modelled, their drawing is not
  (for instance graphviz reads a ':' in an edge name as a port).
* C62: stdio buffering (every method flushes); `pformat` and frames are parameters.
* C76/C77: the command lines are the subject of C98; in a fetchspec, tags or entries of a wrong type raise TypeError (the exception's name can differ).
* Log calls (`abiflib_test_log*`) inside other functions are not part of those functions' models.
* Not modelled at all: the functions in the last column of the table above.

## 6. Findings (claims a user would expect that are refuted, or noted while modelling)

* Pairwise: a listed candidate without a rank erases votes already counted (C04); ties count twice in the win-loss-tie
  list (C05) and as a full point each in the Copeland score, which can change the winner (C09) and breaks reversal
  symmetry (C68).
* IRV: `del` while enumerating skips the next line, so with overvotes the order of lines can change the winner (C26);
  `has_tie`, `bottomtie`, `all_eliminated`, `countedqty` do not mean what their names say (C27); as expected of IRV,
  monotonicity and participation fail (C67).
* Reader: `[]` raises TypeError; `=[tok]:[name]` never matches (C63); a quoted candidate without rating is lost and a
  rating 0 is dropped (C37); a repeated name can leave nobody with rank 1 (C29); `{comments: x}` with storecomments
  raises AttributeError (C31); a comma-blank inside brackets loses the blank (C40).
* Writer: conditions of the round trip each shown necessary (C40).
* Debian: what precedes the last ': ' of an option's name is lost (C46); clashes of plain tokens are not resolved (C47).
* PrefLib: 0 means the last alternative, declared numbers are ignored, a comma in a name splits the candidate (C48, C49);
  the fetchspec's description is dropped (C65, C70 sample).
* The San Francisco script: `--contestid` and `--imagelines` are ignored for abif and jabmod, which also go to standard output and leave the `-o` file empty; `--consolidate` changes nothing; urlencoded and csv96 need three image lines per voter (IndexError in mid-file) and drop a fourth (C71).
* San Francisco: 20-character tokens can collide and merge candidates, duplicate marks: the last rank wins, the length check is
  dead code (C51, C52).
* HTML: the last dagger is removed from its own cell (C57); the STAR page escapes the report twice (C74); the size limit of
  `validate_abifmodel` measures the outer dictionary only, so it never rejects a large election.
* Text tables: a token with a bar is changed, and so are dashes of a heading that needs more than two lines (C75).
* fetchmgr: an interrupted download is never repaired, a non-200 reply is silently ignored (C58); `srcfmt` sticks to later
  entries, links for results in subdirectories dangle, writing through an old link overwrites the download, the same path for download and result
  deletes the download (C59); a failed clone is reported as success, `new/.././f` overwrites `f`, `--abif` is ignored (C70).
* Reports: the Copeland report names one of several tied winners; 'Total counted votes' of an IRV round need not be the sum
  of the candidates' lines (C72).
* Command line: failures exit with status 0, only the last file counts, `-` needs `-f`, `-t paircountjson -m IRV` prints the IRV
  result (C61), `-t json` alone prints a sentence that is not JSON (C73). widj input always raises NameError (C60).
* Scripts: a missing file ends them with a traceback and status 1, abiftool with status 0; `scorestar.py` prints nothing at all with one
  candidate or without points; the condition `outfmt == 'svg' or 'dot'` of `copedot.py` is always true, so its JSON branch is dead (C76).
* configtool: `_fix_tag` splits an unknown tag into letters and its result is not used; an empty file name needs `sys`, which is not
  imported; a bare `raise` (C77).
* Order and lots: with the same votes, the order of the lines decides STAR and IRV ties (C79), and the order of the candidates
  can decide a lot (C80).
* Writing and reading again: the first pass adds metadata, later ones change nothing (C82); piping through formats loses what the format cannot
  hold (C83); consolidating a file with overvotes can change the IRV result, and `-m consolidate` alone prints an empty report (C84).
* The `-d` output is no JSON even with `-t json` (C91).
* With overvotes a candidate who is out still matters to an IRV count (C92); a complete tie breaks independence of clones (C93); the withdrawal of a
  loser can change Copeland winners, and that of the losing finalist the STAR result (C94).
* Limits: a long chain of IRV rounds ends with RecursionError, and a half of an odd number above 2^53 is rounded (C95); scaled scores need not add
  up to 50 (C97).
* `fetchmgr.py -a SPEC` takes SPEC as the value of -a and fetches nothing (C98). Two runs at once can collide in makedirs, and one may
  take the other's half-written file for a complete one (C99). A conversion that is cut off leaves a file that can be read, with other candidates,
  but the next run repairs it (C100).
* Log: a wrong ABIFLIB_LOG is reported at the first call only; no reopening after close_file (C62).

### The project's own tests on the model
RepoTests.v (generated by tools/gen_repotests.py) runs the model of the whole program, ObjModel.abiftool_exact, on the files of /repo/testdata and checks
what 56 tests of /repo/pytests expect of the output (all that need no downloaded file and are not about the layout made by texttable, graphviz or
BeautifulSoup). These examples validate the transcription; no property rests on them.

## 7. Mutation testing of the theorems

`tools/mutate.py` applies one edit to the model in a scratch copy, rebuilds what depends on it and records which
theorems fail; `tools/mutations*.py` hold the edits. Every run is in `seeded/LOG.jsonl`, one line per edit, with the theorems
that failed and, where a theorem survived wrongly, the one added or tightened.
