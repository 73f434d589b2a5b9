{
 "claims": [
  {
   "property": "C01",
   "status": "proved",
   "theorems": [
    "C01_pairwise_exact",
    "C01_cells"
   ],
   "note": ""
  },
  {
   "property": "C02",
   "status": "proved",
   "theorems": [
    "C02_pairwise_accounting",
    "C02_pairwise_bounded"
   ],
   "note": ""
  },
  {
   "property": "C03",
   "status": "proved",
   "theorems": [
    "C03_line_order_irrelevant",
    "C03_splitting_irrelevant"
   ],
   "note": ""
  },
  {
   "property": "C04",
   "status": "proved",
   "theorems": [
    "C04_unranked_line_erases_votes_refuted",
    "C04_exact_behaviour"
   ],
   "note": "The hoped-for claim is refuted by a concrete election; the exact behaviour is proved for all elections."
  },
  {
   "property": "C05",
   "status": "proved",
   "theorems": [
    "C05_winlosstie_exact",
    "C05_copecount_total",
    "C05_wlt_sum",
    "C05_ties_refuted"
   ],
   "note": "Wins and losses exact; the ties figure is proved to be exactly twice the number of tied opponents, and the textbook claim is refuted."
  },
  {
   "property": "C06",
   "status": "proved",
   "theorems": [
    "C06_winners_are_argmax",
    "C06_scores_sorted_complete",
    "C06_winners_exist",
    "C06_no_candidates",
    "C06_report_names_a_winner"
   ],
   "note": ""
  },
  {
   "property": "C07",
   "status": "proved",
   "theorems": [
    "C07_condorcet_winner",
    "C07_condorcet_loser"
   ],
   "note": ""
  },
  {
   "property": "C08",
   "status": "proved",
   "theorems": [
    "C08_smith_criterion"
   ],
   "note": ""
  },
  {
   "property": "C09",
   "status": "proved",
   "theorems": [
    "C09_half_point_refuted",
    "C09_exact_score",
    "C09_half_point_without_ties"
   ],
   "note": "Exact score proved for all elections; the textbook score is proved for candidates without ties; refuted in general (different winner)."
  },
  {
   "property": "C10",
   "status": "proved",
   "theorems": [
    "C10_score_totals",
    "C10_total_all_scores",
    "C10_unknown_candidate"
   ],
   "note": ""
  },
  {
   "property": "C11",
   "status": "proved",
   "theorems": [
    "C11_ranklist",
    "C11_defined"
   ],
   "note": ""
  },
  {
   "property": "C12",
   "status": "proved",
   "theorems": [
    "C12_star_runoff",
    "C12_star_total"
   ],
   "note": ""
  },
  {
   "property": "C13",
   "status": "proved",
   "theorems": [
    "C13_star_abstentions"
   ],
   "note": ""
  },
  {
   "property": "C14",
   "status": "proved",
   "theorems": [
    "C14_add_ratings",
    "C14_idempotent"
   ],
   "note": ""
  },
  {
   "property": "C15",
   "status": "proved",
   "theorems": [
    "C15_scaled_scores",
    "C15_zero_total",
    "C15_defined"
   ],
   "note": ""
  },
  {
   "property": "C16",
   "status": "proved",
   "theorems": [
    "C16_irv_always_answers",
    "C16_no_candidates"
   ],
   "note": ""
  },
  {
   "property": "C17",
   "status": "proved",
   "theorems": [
    "C17_irv_conserves_ballots"
   ],
   "note": ""
  },
  {
   "property": "C18",
   "status": "proved",
   "theorems": [
    "C18_irv_candidate_bookkeeping",
    "C18_irv_eliminated_stay_out"
   ],
   "note": ""
  },
  {
   "property": "C19",
   "status": "proved",
   "theorems": [
    "C19_irv_stops_on_majority_or_tie"
   ],
   "note": ""
  },
  {
   "property": "C20",
   "status": "proved",
   "theorems": [
    "C20_irv_majority_first_round",
    "C20_irv_majority_criterion"
   ],
   "note": ""
  },
  {
   "property": "C21",
   "status": "proved",
   "theorems": [
    "C21_irv_eliminates_last_place"
   ],
   "note": ""
  },
  {
   "property": "C22",
   "status": "proved",
   "theorems": [
    "C22_irv_tallies_are_top_choices"
   ],
   "note": ""
  },
  {
   "property": "C23",
   "status": "proved",
   "theorems": [
    "C23_irv_chance_only_where_reported",
    "C23_lot_decides"
   ],
   "note": ""
  },
  {
   "property": "C24",
   "status": "proved",
   "theorems": [
    "C24_irv_mutual_majority",
    "C24_all_winners_in_majority_set_refuted"
   ],
   "note": "Sole winner in S and some winner in S proved for all elections/schedules; 'every tied winner in S' refuted by a concrete three-way tie."
  },
  {
   "property": "C25",
   "status": "proved",
   "theorems": [
    "C25_sole_winner_not_condorcet_loser"
   ],
   "note": ""
  },
  {
   "property": "C26",
   "status": "proved",
   "theorems": [
    "C26_irv_line_order",
    "C26_line_order_overvotes_refuted"
   ],
   "note": "Full equality of results for strict ballots; the unrestricted claim is refuted by a concrete pair of adjacent overvoted lines that changes the winner."
  },
  {
   "property": "C27",
   "status": "proved",
   "theorems": [
    "C27_irv_metadata_exact",
    "C27_all_eliminated_exact",
    "C27_bottomtie_exact",
    "C27_has_tie_exact",
    "C27_winnerstr_exact",
    "C27_countedqty_refuted",
    "C27_all_eliminated_refuted",
    "C27_winner_listed_as_eliminated_refuted",
    "C27_top_and_bottom_refuted"
   ],
   "note": "Exact meaning proved; each of the readings suggested by the names is refuted by a concrete election."
  },
  {
   "property": "C28",
   "status": "proved",
   "theorems": [
    "C28_ballotcount"
   ],
   "note": ""
  },
  {
   "property": "C29",
   "status": "proved",
   "theorems": [
    "C29_well_formed",
    "C29_first_rank_refuted",
    "C29_first_rank_partial",
    "C29_lines_independent",
    "C29_first_rank_exact"
   ],
   "note": "Well-formedness and line independence proved for all texts; 'some candidate has rank 1' refuted (repeated name), proved when names are distinct (_partial), and C29_first_rank_exact says for every line, repeated names or not, when it holds."
  },
  {
   "property": "C30",
   "status": "proved",
   "theorems": [
    "C30_rejected",
    "C30_empty_text",
    "C30_exceptions",
    "C30_accepted"
   ],
   "note": ""
  },
  {
   "property": "C31",
   "status": "proved",
   "theorems": [
    "C31_comments_ignored",
    "C31_storecomments"
   ],
   "note": ""
  },
  {
   "property": "C32",
   "status": "proved",
   "theorems": [
    "C32_voter_ids",
    "C32_voter_id_syntax"
   ],
   "note": ""
  },
  {
   "property": "C33",
   "status": "proved",
   "theorems": [
    "C33_ranking",
    "C33_repeated"
   ],
   "note": ""
  },
  {
   "property": "C34",
   "status": "proved",
   "theorems": [
    "C34_rating_list",
    "C34_rank_order_is_rating_order"
   ],
   "note": ""
  },
  {
   "property": "C35",
   "status": "proved",
   "theorems": [
    "C35_cleanws",
    "C35_no_indentation"
   ],
   "note": ""
  },
  {
   "property": "C36",
   "status": "proved",
   "theorems": [
    "C36_parsed_is_tallyable",
    "C36_parsed_can_be_tallied"
   ],
   "note": ""
  },
  {
   "property": "C37",
   "status": "proved",
   "theorems": [
    "C37_quoted_candidate_refuted",
    "C37_written_candidates_kept"
   ],
   "note": "Refuted for quoted candidates without rating; proved for every bare, bracketed or rated form."
  },
  {
   "property": "C38",
   "status": "proved",
   "theorems": [
    "C38_metadata_line"
   ],
   "note": ""
  },
  {
   "property": "C39",
   "status": "proved",
   "theorems": [
    "C39_abif_roundtrip",
    "C39_ratings",
    "C39_same_table",
    "C39_same_counts",
    "C39_same_pairwise",
    "C39_same_scores",
    "C39_metadata"
   ],
   "note": ""
  },
  {
   "property": "C40",
   "status": "proved",
   "theorems": [
    "C40_parsed_roundtrip",
    "C40_order_refuted",
    "C40_name_refuted",
    "C40_candidate_lost_refuted",
    "C40_comma_refuted"
   ],
   "note": "C40_parsed_roundtrip: every parsed text under the stated conditions; each condition is shown necessary by a _refuted theorem."
  },
  {
   "property": "C41",
   "status": "proved",
   "theorems": [
    "C41_by_rank",
    "C41_by_rating",
    "C41_stored_order",
    "C41_empty",
    "C41_string_ratings_refuted",
    "C41_mixed_ratings"
   ],
   "note": ""
  },
  {
   "property": "C42",
   "status": "proved",
   "theorems": [
    "C42_written",
    "C42_roundtrip",
    "C42_same_tally"
   ],
   "note": ""
  },
  {
   "property": "C43",
   "status": "proved",
   "theorems": [
    "C43_every_line_counted",
    "C43_kept",
    "C43_only_bad_ranks_fail"
   ],
   "note": ""
  },
  {
   "property": "C44",
   "status": "proved",
   "theorems": [
    "C44_exact",
    "C44_same_line",
    "C44_distinct",
    "C44_counts_preserved",
    "C44_total_preserved",
    "C44_same_matrix",
    "C44_idempotent"
   ],
   "note": ""
  },
  {
   "property": "C45",
   "status": "proved",
   "theorems": [
    "C45_table",
    "C45_row_count",
    "C45_row",
    "C45_fresh_ids",
    "C45_bad_line"
   ],
   "note": ""
  },
  {
   "property": "C46",
   "status": "proved",
   "theorems": [
    "C46_votes_preserved",
    "C46_undeclared_option",
    "C46_ranks",
    "C46_end_to_end",
    "C46_colon_refuted"
   ],
   "note": "Exact output text and end-to-end reading proved for well-formed sheets (names without colon-blank, distinct abbreviations end to end); IndexError for undeclared options; loss of text before the last colon-blank of a name refuted the unrestricted claim. Marks are the ranks 1-9; ranks above the number of options are ignored by the code (and by vote_tiers_of)."
  },
  {
   "property": "C47",
   "status": "proved",
   "theorems": [
    "C47_short_tokens",
    "C47_distinct_abbreviations",
    "C47_clash_resolved",
    "C47_distinct_refuted",
    "C47_checksum"
   ],
   "note": "Length and alphabet proved for every hash; distinctness proved when the abbreviations differ, refuted in general for every hash ('A b' and 'Ab')."
  },
  {
   "property": "C48",
   "status": "proved",
   "theorems": [
    "C48_rankings_preserved",
    "C48_out_of_range",
    "C48_zero_refuted",
    "C48_numbering_refuted"
   ],
   "note": "Exact output proved for files that declare alternatives in order; IndexError for large numbers; two findings refuted: number 0, and numbers declared out of order."
  },
  {
   "property": "C49",
   "status": "proved",
   "theorems": [
    "C49_end_to_end",
    "C49_comma_refuted"
   ],
   "note": "End to end through the ABIF reader, for names of ordinary characters distinct without spaces; commas in names refuted."
  },
  {
   "property": "C50",
   "status": "proved",
   "theorems": [
    "C50_grouped",
    "C50_grouping_unique",
    "C50_bad_line",
    "C50_line_cases",
    "C50_no_lines"
   ],
   "note": "Full statement over every sequence of lines; the division into runs is proved unique; each error case included."
  },
  {
   "property": "C51",
   "status": "proved",
   "theorems": [
    "C51_ballots_counted",
    "C51_only_acceptable",
    "C51_tokens",
    "C51_tokens_listed",
    "C51_duplicate_refuted",
    "C51_distinct_tokens_refuted"
   ],
   "note": "Success characterised in both directions (C51_ballots_counted, C51_only_acceptable); token table and token alphabet proved; duplicate marks and 20-character collisions refuted with counterexamples."
  },
  {
   "property": "C52",
   "status": "proved",
   "theorems": [
    "C52_no_text",
    "C52_fields_exact",
    "C52_stream_exact",
    "C52_lossless",
    "C52_image_lines",
    "C52_length_refuted"
   ],
   "note": "Every specification and text; the declared-length check is refuted."
  },
  {
   "property": "C53",
   "status": "proved",
   "theorems": [
    "C53_exact",
    "C53_squeezed_unique",
    "C53_length_and_characters",
    "C53_idempotent",
    "C53_same_as_sftxt",
    "C53_characters_refuted",
    "C53_injective_refuted"
   ],
   "note": "exact description, length, alphabet, idempotence; alphabet with a final newline and injectivity are refuted"
  },
  {
   "property": "C54",
   "status": "proved",
   "theorems": [
    "C54_kept",
    "C54_nothing_new",
    "C54_no_sets",
    "C54_idempotent",
    "C54_serialisable",
    "C54_tuple_refuted"
   ],
   "note": "nested values as trees; exact condition for the result to be serialisable; sets inside tuples are refuted"
  },
  {
   "property": "C55",
   "status": "proved",
   "theorems": [
    "C55_exceptions",
    "C55_written",
    "C55_others_unchanged",
    "C55_when",
    "C55_negative_refuted"
   ],
   "note": "nested values as trees (no aliasing); negative list positions refuted"
  },
  {
   "property": "C56",
   "status": "proved",
   "theorems": [
    "C56_nodes",
    "C56_edges",
    "C56_arrows",
    "C56_total"
   ],
   "note": "what is handed to graphviz; rendering (and graphviz's port syntax in names with ':') not modelled"
  },
  {
   "property": "C57",
   "status": "proved",
   "theorems": [
    "C57_rows",
    "C57_contests",
    "C57_remark",
    "C57_daggers",
    "C57_dagger_refuted",
    "C57_texttable",
    "C57_textgrid"
   ],
   "note": "cells, captions and widths exact for every tallyable election; the dagger rule as documented is refuted, the actual one proved (C57_daggers); rendering of BeautifulSoup and texttable not modelled, except that appending an element moves it"
  },
  {
   "property": "C58",
   "status": "proved",
   "theorems": [
    "C58_existing_files_kept",
    "C58_history",
    "C58_second_run_idle",
    "C58_crash_leaves_prefixes",
    "C58_downloads_exact",
    "C58_crash_repair_refuted",
    "C58_failure_reported_refuted"
   ],
   "note": "Steps: makedirs, request, open, one byte at a time; every step may be refused by the OS and a crash may come after any step; server replies arbitrary and may depend on time; path resolution is an arbitrary function. stderr messages not modelled; several processes at once are C99."
  },
  {
   "property": "C59",
   "status": "proved",
   "theorems": [
    "C59_directory_input",
    "C59_not_utf8",
    "C59_sequence",
    "C59_own_format",
    "C59_stops",
    "C59_unknown_format",
    "C59_links",
    "C59_links_rerun",
    "C59_converted",
    "C59_failed",
    "C59_missing_input",
    "C59_archive_member",
    "C59_archive_sequence",
    "C59_line_ends",
    "C59_own_format_refuted",
    "C59_link_in_subdirectory_refuted",
    "C59_missing_download_refuted",
    "C59_same_place_refuted",
    "C59_overwrites_download_refuted",
    "C59_link_dots",
    "C59_link_directory"
   ],
   "note": "POSIX path resolution with directories and symbolic links modelled (PosixModel), also os.makedirs, os.path.relpath, pathlib, UTF-8 and universal newlines; the tar reader and SHA1 are parameters; refusals by the operating system and concurrent processes not modelled; interrupted runs are C100."
  },
  {
   "property": "C60",
   "status": "proved",
   "theorems": [
    "C60_dropped_names",
    "C60_refuted",
    "C60_if_defined"
   ],
   "note": "C60_refuted: the real module always raises NameError, on every input; C60_if_defined: what it would do if ABIF_VERSION were defined."
  },
  {
   "property": "C61",
   "status": "proved",
   "theorems": [
    "C61_format",
    "C61_unsupported",
    "C61_dash_needs_format_refuted",
    "C61_missing_file",
    "C61_failure_status_refuted",
    "C61_last_file",
    "C61_all_files_refuted",
    "C61_stdin",
    "C61_stdin_sftxt",
    "C61_modifier_order",
    "C61_text_sections",
    "C61_section_order",
    "C61_default_modifiers",
    "C61_paircountjson",
    "C61_paircountjson_refuted",
    "C61_jabmod",
    "C61_conversions",
    "C61_winlosstiejson",
    "C61_candlist"
   ],
   "note": "argparse itself, -d, and rendering by graphviz, BeautifulSoup and texttable are parameters; IRV and STAR JSON encodings are parameters."
  },
  {
   "property": "C62",
   "status": "proved",
   "theorems": [
    "C62_log",
    "C62_silent",
    "C62_one_open",
    "C62_misconfiguration_refuted",
    "C62_top_level_refuted",
    "C62_after_close"
   ],
   "note": "environment (variable, directories, whether open succeeds) may change from call to call; pformat and the frames are parameters; stdio buffering not modelled since every method flushes."
  },
  {
   "property": "C63",
   "status": "proved",
   "theorems": [
    "C63_candidate_line",
    "C63_bracketed_token_refuted"
   ],
   "note": "Proved for simple tokens/names; the bracketed-token form is refuted."
  },
  {
   "property": "C64",
   "status": "proved",
   "theorems": [
    "C64_loads_dumps",
    "C64_total",
    "C64_jabmod",
    "C64_jabmod_any_form",
    "C64_distinct",
    "C64_paircount",
    "C64_null_comment"
   ],
   "note": "the standard library's json.dumps / json.loads modelled without floats; key order fixed by json_of_jabmod, any order by C64_jabmod_any_form; null and absent members not distinguished."
  },
  {
   "property": "C65",
   "status": "proved",
   "theorems": [
    "C65_unsupported",
    "C65_missing_input",
    "C65_widj_refuted",
    "C65_arguments",
    "C65_abif",
    "C65_jabmod",
    "C65_preflib",
    "C65_debtally",
    "C65_sftxt"
   ],
   "note": "Composes C40, C46, C49, C51, C64 with the writer and reader; candidate names or tokens must be free of the characters ABIF cannot carry (stated as hypotheses); add_ratings=false for ABIF input, as the code passes nothing else to the other readers."
  },
  {
   "property": "C66",
   "status": "proved",
   "theorems": [
    "C66_later_no_harm",
    "C66_later_no_help"
   ],
   "note": "Strict ballots (no equal ranks), same oracle in both counts; the whole result record is shown equal."
  },
  {
   "property": "C67",
   "status": "proved",
   "theorems": [
    "C67_more_first_places",
    "C67_monotonicity_refuted",
    "C67_participation_refuted"
   ],
   "note": "C67_more_first_places is the positive claim (strict ballots, no tie for last place before the final round); C67_monotonicity_refuted and C67_participation_refuted are machine-checked counterexamples to the stronger claims a user might expect."
  },
  {
   "property": "C68",
   "status": "proved",
   "theorems": [
    "C68_monotone",
    "C68_neutral",
    "C68_candidate_order",
    "C68_homogeneous",
    "C68_joint_count",
    "C68_reversal_refuted",
    "C68_reversal_without_ties"
   ],
   "note": "On tallyable models (C01). C68_reversal_refuted is a machine-checked counterexample caused by ties earning a full point; C68_reversal_without_ties is the positive form."
  },
  {
   "property": "C69",
   "status": "proved",
   "theorems": [
    "C69_joint_score",
    "C69_consistency",
    "C69_participation",
    "C69_score_monotone",
    "C69_star_monotone",
    "C69_star_condorcet_loser",
    "C69_line_order",
    "C69_neutral"
   ],
   "note": "On scorable models (C10); the winner is the first of sr_ranklist, ties resolved by table order as the code does. star_wins: finalist with strictly more runoff votes."
  },
  {
   "property": "C70",
   "status": "proved",
   "theorems": [
    "C70_removed_directory",
    "C70_entry",
    "C70_nothing_to_update",
    "C70_missing_fetchspec",
    "C70_unreadable_fetchspec",
    "C70_invalid_fetchspec",
    "C70_clone",
    "C70_pull",
    "C70_git_or_web",
    "C70_nothing_overwritten",
    "C70_downloads",
    "C70_no_second_download",
    "C70_end_to_end",
    "C70_one_file",
    "C70_no_arguments",
    "C70_in_order",
    "C70_abif_option_ignored",
    "C70_plain_entry",
    "C70_failed_clone_refuted",
    "C70_dot_overwrites_refuted"
   ],
   "note": "Server and git are oracles depending on the number of earlier events; wrong-typed JSON members raise TypeError up front (the code would raise it later); POSIX tree without refusals by the OS. The downloads part needs complete entries (url/localcopy or urls/localcopies of equal length) whose local path does not end its directory part in '/.' (fit_path); that condition is shown necessary by C70_dot_overwrites_refuted."
  },
  {
   "property": "C71",
   "status": "proved",
   "theorems": [
    "C71_empty_name",
    "C71_json",
    "C71_json_read_back",
    "C71_imagelines",
    "C71_urlencoded",
    "C71_csv96",
    "C71_abif",
    "C71_jabmod",
    "C71_as_abiftool",
    "C71_outfile",
    "C71_unknown_format",
    "C71_missing_file",
    "C71_contestid_refuted",
    "C71_fourth_mark_refuted"
   ],
   "note": "Files are a map from names to text (newlines translated); two names are two files and the name '-' is not used. The record formats are proved for files whose image lines of the contest all stand for votes (usable); what a bad line does to the generator is C50_bad_line. The urlencoded statement needs names that are Unicode text other than the word None, which cannot be told from nobody."
  },
  {
   "property": "C72",
   "status": "proved",
   "theorems": [
    "C72_irv_report",
    "C72_irv_figures",
    "C72_score_report",
    "C72_star_report",
    "C72_copeland_tie_refuted",
    "C72_counted_line_refuted"
   ],
   "note": "Printed numbers are decimal texts of integers (votes are whole numbers in this model)."
  },
  {
   "property": "C73",
   "status": "proved",
   "theorems": [
    "C73_cli_irv",
    "C73_cli_star",
    "C73_cli_json_refuted",
    "C73_irv_json",
    "C73_irv_json_figures",
    "C73_score_json",
    "C73_star_json"
   ],
   "note": "Names must be Unicode scalar values (C64). The order of a Python set is an arbitrary permutation. Floats do not occur in these results."
  },
  {
   "property": "C74",
   "status": "proved",
   "theorems": [
    "C74_cli_html",
    "C74_heading_values",
    "C74_page",
    "C74_results_shown",
    "C74_heading",
    "C74_star_page",
    "C74_star_page_refuted"
   ],
   "note": "BeautifulSoup is taken to escape &, < and > in strings, to write attributes as given and to add or drop blanks only around tags and strings (relation pretty in HtmlModel); the diagram embedded with -m svg is not covered by the text and tag theorems. The size check of html_snippet is taken to pass: it measures the outer dictionary only."
  },
  {
   "property": "C75",
   "status": "proved",
   "theorems": [
    "C75_cli_tables",
    "C75_table",
    "C75_tokens_refuted"
   ],
   "note": "What texttable draws is a parameter."
  },
  {
   "property": "C76",
   "status": "proved",
   "theorems": [
    "C76_irvtally",
    "C76_missing_refuted",
    "C76_unreadable",
    "C76_pairwise",
    "C76_scorestar",
    "C76_scorestar_nothing_refuted",
    "C76_pipe_importers",
    "C76_pipe_jabmod",
    "C76_html_pairwise",
    "C76_html_scorestar",
    "C76_copedot",
    "C76_copedot_json",
    "C76_core_prefs",
    "C76_core_rest",
    "C76_help"
   ],
   "note": "What graphviz, texttable and BeautifulSoup do, json.dumps of floats and str() of a list are parameters."
  },
  {
   "property": "C77",
   "status": "proved",
   "theorems": [
    "C77_mayor",
    "C77_list",
    "C77_other",
    "C77_missing",
    "C77_fix_tag_refuted",
    "C77_fix_tag"
   ],
   "note": "yaml.dump is a parameter."
  },
  {
   "property": "C78",
   "status": "proved",
   "theorems": [
    "C78_characters",
    "C78_names",
    "C78_storable"
   ],
   "note": "The converse (every character of the file is kept) is of course false and not claimed; C39-C41 say what is kept."
  },
  {
   "property": "C79",
   "status": "proved",
   "theorems": [
    "C79_table",
    "C79_mentions",
    "C79_line_order",
    "C79_same_results",
    "C79_declared_first",
    "C79_joined",
    "C79_split",
    "C79_irv_order_refuted",
    "C79_star_order_refuted",
    "C79_names_order_refuted"
   ],
   "note": "Read with storecomments off. The provisos of the IRV and STAR parts are needed: C79_irv_order_refuted, C79_star_order_refuted, C79_names_order_refuted."
  },
  {
   "property": "C80",
   "status": "proved",
   "theorems": [
    "C80_neutral",
    "C80_neutral_any_schedule",
    "C80_homogeneous",
    "C80_candidate_order",
    "C80_unlisted_candidate",
    "C80_candidate_order_lot_refuted",
    "C80_unlisted_overvotes_refuted",
    "C80_joint_refuted"
   ],
   "note": "Renaming must keep the empty token empty (the count takes it for nobody). Provisos needed: C80_candidate_order_lot_refuted, C80_unlisted_overvotes_refuted, C80_joint_refuted."
  },
  {
   "property": "C81",
   "status": "proved",
   "theorems": [
    "C81_round_counts",
    "C81_one_vote_each",
    "C81_discards_exactly",
    "C81_strict_is_usual",
    "C81_same_ballots"
   ],
   "note": "The skipped line after a discarded one is the behaviour of the code (deleting from the list being enumerated), not of the specification of overvotes: C81_unseen_line shows a ballot with a shared first place counted for its third choice."
  },
  {
   "property": "C82",
   "status": "proved",
   "theorems": [
    "C82_cli",
    "C82_settles",
    "C82_ballots_settle",
    "C82_settles_later",
    "C82_first_pass_refuted",
    "C82_quoted_rating_refuted"
   ],
   "note": "The reader stores the ballot count written in the text under ballotcount_abif_metadata, which the next writing prints too: C82_first_pass_refuted. Ratings behind quoted names are stored as text and printed unchanged, read back as numbers: C82_quoted_rating_refuted."
  },
  {
   "property": "C83",
   "status": "proved",
   "theorems": [
    "C83_same_results",
    "C83_pipe",
    "C83_star_refuted",
    "C83_ratings_refuted",
    "C83_brackets_refuted"
   ],
   "note": "Refutations for each condition: C83_star_refuted, C83_ratings_refuted, C83_brackets_refuted."
  },
  {
   "property": "C84",
   "status": "proved",
   "theorems": [
    "C84_only_counts",
    "C84_consolidate",
    "C84_split",
    "C84_overvotes_refuted",
    "C84_cli",
    "C84_cli_alone_refuted"
   ],
   "note": "Refuted for IRV with equal ranks (C84_overvotes_refuted) and for the text report when consolidate is the only modifier (C84_cli_alone_refuted)."
  },
  {
   "property": "C85",
   "status": "proved",
   "theorems": [
    "C85_ending",
    "C85_always",
    "C85_unreadable"
   ],
   "note": "The reasons all occur (C85_reasons). Assumes that texttable draws a table with a header in at least four lines (draws_tables), which it does: border, header, line, border."
  },
  {
   "property": "C86",
   "status": "proved",
   "theorems": [
    "C86_preflib",
    "C86_debtally",
    "C86_nameq",
    "C86_sftxt",
    "C86_sftxt_one_file",
    "C86_pipe_nameq"
   ],
   "note": "For San Francisco files the rank bound comes from the width of the field (three characters). An empty line that ends a nameq file made by shell redirection counts as a ballot (C86_pipe_nameq)."
  },
  {
   "property": "C87",
   "status": "proved",
   "theorems": [
    "C87_options",
    "C87_preflib",
    "C87_debtally",
    "C87_nameq",
    "C87_sftxt",
    "C87_sftxt_html"
   ],
   "note": "The sizes are bounded by sys.maxsize as in C85. The order of the keys in the JSON of -t jabmod is C96. With -f sftxt, -t html and -t html_snippet always fail in practice (C87_sftxt_html)."
  },
  {
   "property": "C88",
   "status": "proved",
   "theorems": [
    "C88_written",
    "C88_read_back",
    "C88_same_election",
    "C88_pipe"
   ],
   "note": "For jabmod and widj input, that the texts in the election are made of Unicode scalar values is a hypothesis on the election, not on the file (a JSON escape can name a surrogate). The order of the keys inside a voteline is that of JabmodJson."
  },
  {
   "property": "C89",
   "status": "proved",
   "theorems": [
    "C89_stackfunc",
    "C89_callstackstr",
    "C89_default"
   ],
   "note": "The stack itself (inspect.currentframe, inspect.getouterframes) is a parameter. devtools.py main is not modelled: it calls a function with a keyword it does not have and always ends with TypeError."
  },
  {
   "property": "C90",
   "status": "proved",
   "theorems": [
    "C90_others",
    "C90_irv",
    "C90_star"
   ],
   "note": "For the IRV and STAR JSON the election must be one these methods can count (irv_election, scorable and tallyable), which every election read from one of the formats but jabmod and widj is (C36, C87)."
  },
  {
   "property": "C91",
   "status": "proved",
   "theorems": [
    "C91_standard",
    "C91_dashes",
    "C91_bad_choice",
    "C91_no_files",
    "C91_two_groups",
    "C91_accepted",
    "C91_unknown",
    "C91_help",
    "C91_status",
    "C91_run",
    "C91_debug_json_refuted",
    "C91_switch_value"
   ],
   "note": "argparse is part of the standard library; its source in Python 3.11 is what is modelled, and the model agreed with it on 4500 random command lines. C91_debug_json_refuted shows that -d spoils JSON output."
  },
  {
   "property": "C92",
   "status": "proved",
   "theorems": [
    "C92_withdrawn_lots",
    "C92_withdrawn",
    "C92_overvotes_refuted"
   ],
   "note": "C92_overvotes_refuted is the counterexample with equal rankings."
  },
  {
   "property": "C93",
   "status": "proved",
   "theorems": [
    "C93_clones",
    "C93_nonvacuous",
    "C93_complete_tie_refuted"
   ],
   "note": "C93_complete_tie_refuted is the exception; C93_nonvacuous a vote split that does no harm."
  },
  {
   "property": "C94",
   "status": "proved",
   "theorems": [
    "C94_pairwise",
    "C94_pairwise_cells",
    "C94_copeland_dominated",
    "C94_condorcet",
    "C94_score",
    "C94_star",
    "C94_copeland_refuted",
    "C94_star_refuted"
   ],
   "note": "C94_copeland_refuted and C94_star_refuted are the exceptions."
  },
  {
   "property": "C95",
   "status": "proved",
   "theorems": [
    "C95_limited",
    "C95_depth_refuted",
    "C95_float_refuted",
    "C95_nonvacuous"
   ],
   "note": "C95_depth_refuted and C95_float_refuted show that both limits can be reached. Frames used by functions other than the count itself are not modelled: `depth` is what is left for the count."
  },
  {
   "property": "C96",
   "status": "proved",
   "theorems": [
    "C96_abif",
    "C96_nameq",
    "C96_sftxt",
    "C96_consolidate",
    "C96_run",
    "C96_printed",
    "C96_through",
    "C96_not_json",
    "C96_again",
    "C96_jabmod_consolidated",
    "C96_program"
   ],
   "note": "The record model of the other properties drops keys that the program does not use and null comments; main_exact keeps them, and C96_through, C96_again and C96_not_json describe what happens to a jabmod file. The statement about reading back needs an object without lone surrogates."
  },
  {
   "property": "C97",
   "status": "proved",
   "theorems": [
    "C97_float",
    "C97_scaled",
    "C97_range",
    "C97_total_refuted",
    "C97_nonvacuous"
   ],
   "note": "The exponent of the model's floats is unlimited; C97_range shows that all numbers of a run stay between 2^-53 and 2^54, so the limits of binary64 are not met. C15 states the same computation with exact fractions. How the floats are printed (repr) is not modelled."
  },
  {
   "property": "C98",
   "status": "proved",
   "theorems": [
    "C98_file_scripts",
    "C98_irvtally",
    "C98_copedot",
    "C98_sftxt",
    "C98_core",
    "C98_fetchmgr",
    "C98_abif_switch_refuted",
    "C98_ambiguous",
    "C98_unknown",
    "C98_help",
    "C98_bad_choice",
    "C98_dashes",
    "C98_accepted",
    "C98_refused",
    "C98_switch_value",
    "C98_irvtally_spelled",
    "C98_copedot_spelled",
    "C98_sftxt_spelled",
    "C98_core_spelled"
   ],
   "note": "argparse is modelled as in Python 3.11, from its documentation and source, for the features these parsers use. The usage and help texts are parameters. textoutput.py run as a script calls a main that does not exist, and is not covered."
  },
  {
   "property": "C99",
   "status": "proved",
   "theorems": [
    "C99_alone",
    "C99_existing_files_kept",
    "C99_contents",
    "C99_all_ended",
    "C99_nobody_fails",
    "C99_every_schedule_ends",
    "C99_together_succeed",
    "C99_makedirs_race_refuted",
    "C99_end_means_complete_refuted"
   ],
   "note": "File objects are not flushed in one piece: each byte is a step, and every interleaving of larger writes is among these schedules. Each os.makedirs is one step, so a race between two os.makedirs in the middle of a chain of parents is not covered. Processes that use gitrepo or abif_archive entries are not in this model."
  },
  {
   "property": "C100",
   "status": "proved",
   "theorems": [
    "C100_same_run",
    "C100_repaired",
    "C100_crash_points",
    "C100_half_file_refuted",
    "C100_first_run"
   ],
   "note": "C100_repaired: the ABIF directory is there at first; C100_first_run: it is not, nor perhaps are directories above it. No input is an output (C59_same_place_refuted shows what happens otherwise). nameq_archive entries and outputs in subdirectories of the ABIF directory are in CrashModel and C100_same_run but not in the repair theorem. An operating system crash that loses earlier writes is not modelled: the file system keeps the order of the system calls."
  }
 ]
}