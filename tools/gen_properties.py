#!/usr/bin/env python3
# Writes /verif/properties.jsonl from the table below (kept in one place so it can be edited).
import json, os
P = []
def p(id, title, statement, quantifier, why, anchors):
    P.append(dict(id=id, title=title, statement=statement, quantifier=quantifier,
                  why_tests_cant=why, anchors=anchors))

ANYELEC = "every election model (any number of candidates and votelines, any quantities and ranks)"

# ---------------------------------------------------------------- pairwise / Copeland
p("C01", "Pairwise matrix is the exact head-to-head tally",
  "pairwise_count_dict(m) returns, for every two distinct candidates a,b of m, the sum of qty over the votelines that rank a strictly better than b, where a candidate not listed on a voteline is below every listed one and two unlisted candidates are tied; the diagonal is None; no other keys exist.",
  ANYELEC + " whose listed candidates carry a rank below sys.maxsize",
  "A test checks one matrix of one file; the claim is about every cell of every election.",
  ["abiflib/pairwise.py:pairwise_count_dict"])
p("C02", "Pairwise accounting identity",
  "For distinct candidates a,b: votes(a over b) + votes(b over a) + ballots indifferent between them = total ballots; in particular the two counts never exceed the ballot total.",
  ANYELEC, "An identity over all elections and all pairs.", ["abiflib/pairwise.py:pairwise_count_dict"])
p("C03", "Pairwise tally is independent of voteline order and of how identical ballots are grouped",
  "Reordering the votelines, splitting a voteline q1+q2 into two, or consolidating votelines never changes any cell of the pairwise matrix.",
  "every election and every permutation/regrouping of its votelines", "Ranges over all permutations.",
  ["abiflib/pairwise.py:pairwise_count_dict", "abiflib/core.py:consolidate_jabmod_voteline_objects"])
p("C04", "What a candidate without rank does to the pairwise matrix",
  "The cell for a pair of candidates counts exactly the ballots preferring the first to the second on the lines after the last line that lists either of them without a rank: such a line resets the cell. (The expectation that such a line leaves earlier votes alone is refuted by an election.)",
  "every election model, including JSON models whose prefs carry only ratings", "The erasure depends on the position of one line among arbitrarily many.",
  ["abiflib/pairwise.py:pairwise_count_dict (lines 65-67)"])
p("C05", "Win-loss-tie records",
  "For each candidate, winlosstie_dict_from_pairdict reports wins = number of opponents it beats and losses = number of opponents it loses to, and ties = twice the number of opponents it ties with, so wins + losses + ties/2 = n-1. (The expectation that ties is the number of tied opponents is refuted.)",
  "every candidate of every pairwise matrix over those candidates", "Universally quantified over matrices; existing tests have no tie.",
  ["abiflib/pairwise.py:winlosstie_dict_from_pairdict"])
p("C06", "Copeland winners are exactly the top scorers",
  "get_Copeland_winners returns exactly the candidates whose score is maximal (never empty when there is a candidate, ValueError when there is none), calc_Copeland_scores lists every candidate once in non-increasing score order, and Copeland_report names one of the winners.",
  "every win-loss-tie table", "Ranges over all tables including ties.",
  ["abiflib/pairwise.py:calc_Copeland_scores", "abiflib/pairwise.py:get_Copeland_winners", "abiflib/pairwise.py:Copeland_report"])
p("C07", "Condorcet consistency",
  "If one candidate beats every other head-to-head, the Copeland winner list is exactly that candidate; if (with at least two candidates) one loses to every other, it is never a Copeland winner.",
  ANYELEC, "A voting-theory criterion over all elections.", ["abiflib/pairwise.py:full_copecount_from_abifmodel", "abiflib/pairwise.py:get_Copeland_winners"])
p("C08", "Smith criterion",
  "Whenever the candidates split into a non-empty group each of whose members beats every candidate outside it, every Copeland winner is in that group.",
  "every election and every dominating set of candidates", "Ranges over all subsets of candidates of all elections.",
  ["abiflib/pairwise.py:get_Copeland_winners"])
p("C09", "Copeland score: a tie counts as a full point",
  "The Copeland score reported for a candidate is wins + number of tied opponents; it is the textbook wins + 1/2 * ties when the candidate ties with nobody. (The expectation that a tie counts half is refuted, with an election where this changes the winner.)",
  "every election", "Only visible when some pair is tied.", ["abiflib/pairwise.py:winlosstie_dict_from_pairdict", "abiflib/pairwise.py:calc_Copeland_scores"])
# ---------------------------------------------------------------- score / STAR
p("C10", "Score totals are exact",
  "basic_score_result_from_abifmodel gives each candidate score = sum over votelines of qty*rating (missing rating = 0) and votercount = sum of qty over the lines rating it above 0; the reported total_all_scores is the sum of all candidates' scores.",
  ANYELEC + " with integer ratings", "Sum over arbitrary elections.",
  ["abiflib/scorestar.py:basic_score_result_from_abifmodel", "abiflib/scorestar.py:enhanced_score_result_from_abifmodel"])
p("C11", "Score ranking is a dense ranking by score",
  "ranklist is a permutation of the candidates in non-increasing score order (ties in candidate order), and rank(c) = 1 + number of distinct scores strictly above c's.",
  ANYELEC, "All permutations and tie patterns.", ["abiflib/scorestar.py:enhanced_score_result_from_abifmodel"])
p("C12", "STAR runoff",
  "The two STAR finalists are the first two of the score ranking; the winner is the finalist preferred by more ballots head-to-head, and a tie is reported exactly when the counts are equal. With fewer than two candidates the call fails (IndexError).",
  ANYELEC, "All elections.", ["abiflib/scorestar.py:STAR_result_from_abifmodel"])
p("C13", "STAR abstentions account for every ballot",
  "final_abstentions = number of ballots expressing no preference between the finalists; it is never negative when ballotcount equals the sum of qty.",
  ANYELEC, "All elections.", ["abiflib/scorestar.py:STAR_result_from_abifmodel"])
p("C14", "--add-scores fills in ratings without altering existing data",
  "With add_ratings, if no voteline has any rating every listed candidate gets (number of candidates - rank); otherwise only missing/zero ratings become 0. Ranks, quantities, candidates and the existing non-zero ratings are untouched.",
  ANYELEC, "All elections, all mixtures of rated and unrated entries.", ["abiflib/core.py:_add_ratings_to_jabmod_votelines"])
p("C15", "Scaled scores add up to the target",
  "scaled_scores gives each candidate score*target/total, so the scaled scores sum to the target scale; a zero total raises ZeroDivisionError.",
  ANYELEC + " (exact arithmetic; float rounding not modelled)", "Algebraic identity.", ["abiflib/scorestar.py:scaled_scores"])
# ---------------------------------------------------------------- IRV
p("C16", "IRV always terminates with an answer",
  "For every election with at least one candidate whose votelines list only known, ranked candidates, IRV_dict_from_jabmod returns (no exception, no infinite recursion) after at most as many rounds as candidates, whatever random.choice and set iteration order do.",
  "every election, every outcome of every random tie-break and every set iteration order", "Quantifies over all random schedules.",
  ["abiflib/irvtally.py:_irv_count_internal", "abiflib/irvtally.py:IRV_dict_from_jabmod"])
p("C17", "IRV conserves ballots in every round",
  "In every round startingqty = overvoteqty + exhaustedqty + sum of the candidates' votes, ballotcount = startingqty - overvoteqty, and the next round starts with exactly this round's ballotcount.",
  "every election, every round, every schedule", "Per-round invariant over whole histories.", ["abiflib/irvtally.py:_irv_count_internal"])
p("C18", "IRV candidate bookkeeping",
  "Round 1 starts with all candidates; each later round starts with exactly the previous round's candidates minus those reported eliminated (at least one, never all); every round reports a count for exactly its starting candidates; nobody eliminated reappears or wins.",
  "every election, every round, every schedule", "Invariant over histories.", ["abiflib/irvtally.py:_irv_count_internal"])
p("C19", "IRV stops exactly on a strict majority or a complete tie",
  "In the final round either the single winner holds more than half of the votes counted for candidates, or all remaining candidates have equal votes and all are returned; in every earlier round neither condition holds.",
  "every election, every schedule", "All histories.", ["abiflib/irvtally.py:_irv_count_internal"])
p("C20", "IRV majority criterion",
  "A candidate counted as first choice on more than half of the votes counted in round 1 is the sole winner, in one round, regardless of tie-breaks.",
  "every election, every schedule", "All elections.", ["abiflib/irvtally.py:_irv_count_internal"])
p("C21", "IRV eliminates only last-placed candidates, and in batches only when safe",
  "Everybody eliminated in a non-final round has the minimum vote of that round; several are eliminated together only if their votes combined do not exceed the next higher tally; one is chosen at random only when that is not so and the tie is real.",
  "every election, every round, every schedule", "All histories.", ["abiflib/irvtally.py:_irv_count_internal"])
p("C22", "IRV round tallies are true top-choice counts",
  "When no ballot gives two candidates the same rank, each round's count for c is the sum of qty over the votelines on which c is the best-ranked still-standing candidate, and exhaustedqty is the sum over votelines listing no still-standing candidate.",
  "every strict-ranking election, every round, every schedule", "All elections and histories.", ["abiflib/irvtally.py:_get_valid_topcand_qty", "abiflib/irvtally.py:_irv_count_internal"])
p("C23", "IRV depends on chance only where it says so",
  "If a run reports no random_elim before its final round then every other run on the same input (any random choices, any set order) has the same winners, the same number of rounds and the same tallies; the flag is set only on real bottom ties.",
  "every election and every pair of schedules", "A two-run (hyper)property over all schedules.", ["abiflib/irvtally.py:_irv_count_internal"])
p("C24", "IRV mutual majority",
  "With strict rankings, if ballots making up more than half of the total rank every member of a set S above every non-member, then a sole IRV winner is in S, and any list of tied winners contains a member of S, whatever the tie-breaks. (Not every tied winner need be in S: when all standing candidates tie, outsiders are returned too.)",
  "every strict-ranking election, every set S, every schedule", "All elections, subsets and schedules.", ["abiflib/irvtally.py:_irv_count_internal"])
p("C25", "A sole IRV winner is never the Condorcet loser",
  "With strict rankings, if IRV returns a single winner and there are at least two candidates, that winner does not lose every head-to-head contest of the pairwise matrix.",
  "every strict-ranking election, every schedule", "Relates two tally modules over all elections.", ["abiflib/irvtally.py:_irv_count_internal", "abiflib/pairwise.py:pairwise_count_dict"])
p("C26", "IRV does not depend on the order of the votelines",
  "When no ballot gives two candidates the same rank, permuting the votelines changes nothing in the result: winners, rounds, tallies and round metadata are identical. (With equal ranks this is false: an overvoted voteline directly after another overvoted voteline is not discarded, so the result depends on line order.)",
  "every strict-ranking election, every permutation of its votelines, every schedule", "All permutations; the bug needs two adjacent overvoted lines.", ["abiflib/irvtally.py:_discard_toprank_overvotes"])
p("C27", "What the IRV round metadata figures mean",
  "countedqty is the votes counted for candidates minus the exhausted ballots; top_voteqty is the lowest and bottom_voteqty the highest tally of the round; before the final round all_eliminated is everybody reported eliminated so far except a batch eliminated in round 1. (The readings the names suggest are false: countedqty is not the number of counted votes, all_eliminated misses first-round batches and can contain winners, top_voteqty can be below bottom_voteqty.)",
  "every election", "Only visible with exhausted ballots / batch elimination / final ties.", ["abiflib/irvtally.py:_irv_count_internal (lines 129, 141-142, 201-209)"])
# ---------------------------------------------------------------- ABIF parser
p("C28", "Parsed ballot count equals the votes parsed",
  "For every input text on which convert_abif_to_jabmod succeeds, metadata.ballotcount is an integer equal to the sum of the quantities of the returned votelines; a {ballotcount: ...} line in the file can never override it.",
  "every input string (all of Unicode), all option combinations", "Ranges over all strings.", ["abiflib/core.py:convert_abif_to_jabmod", "abiflib/core.py:_process_abif_prefline", "abiflib/core.py:_process_abif_metadata"])
p("C29", "Parsed models are well-formed",
  "For every input text that parses: there is at least one voteline; votelines are in non-increasing qty order; every candidate on a voteline is in the candidate table; no table has duplicate keys; every listed candidate carries a rank of at least 1; what one voteline means does not depend on the other votelines. (The expected further claim, that some listed candidate has rank 1, is false: a candidate repeated on a line can leave its best rank empty; it is true when no name repeats.)",
  "every input string", "Ranges over all strings.", ["abiflib/core.py:convert_abif_to_jabmod", "abiflib/core.py:_parse_prefstr_to_dict"])
p("C30", "Files without votelines are rejected",
  "convert_abif_to_jabmod raises ABIFVotelineException on the empty text and on every text none of whose lines is a voteline; conversely a text that contains a voteline never raises it for that reason.",
  "every input string", "Ranges over all strings.", ["abiflib/core.py:convert_abif_to_jabmod"])
p("C31", "Comments never change the votes",
  "Appending '# anything' to a comment-free line changes no candidate, quantity, rank, rating or non-comment metadata of the parsed model.",
  "every line, every comment text, every surrounding file", "Ranges over all strings.", ["abiflib/core.py:convert_abif_to_jabmod", "abiflib/abifregex.py:COMMENT_REGEX"])
p("C32", "Voter ids",
  "A voteline followed by '##VID:<id>' (id without whitespace) is stored with voterid = id; a voteline without such a comment gets no voterid.",
  "every voteline and id", "Ranges over all strings.", ["abiflib/core.py:_process_abif_prefline", "abiflib/abifregex.py:VOTERID_REGEX"])
p("C33", "Ranking syntax means ranking",
  "For every sequence of tiers of distinct simple candidate tokens, the preference text joining tiers by '>' and tier members by '=' parses to exactly those candidates, with rank i for tier i, and with the ratings written after '/' attached to their candidates.",
  "all tier structures of any size, all admissible tokens", "Unbounded inputs.", ["abiflib/core.py:_parse_prefstr_to_dict", "abiflib/core.py:_extract_candprefs_from_prefstr", "abiflib/core.py:_determine_rank_or_rate"])
p("C34", "Rating syntax means ranking by rating",
  "For every comma-separated list of distinct simple tokens with optional ratings, the parsed ranks are the dense ranking by rating, highest first (missing = 0): a is ranked above b iff it has the higher rating, equal iff equal.",
  "all lists of any size", "Unbounded inputs.", ["abiflib/core.py:_parse_prefstr_to_dict", "abiflib/core.py:_add_ranks_to_prefjab_by_rating"])
p("C35", "--cleanws forgives exactly leading whitespace",
  "With cleanws the parse of a text equals the parse without cleanws of the text whose lines have their leading whitespace removed; on texts with no indented line it changes nothing.",
  "every input string", "Ranges over all strings.", ["abiflib/core.py:convert_abif_to_jabmod"])
p("C36", "Whatever parses can be tallied",
  "For every input text that parses to a model with at least one candidate, the pairwise matrix, win-loss-tie table, Copeland winner, score table and IRV count all return normally, the pairwise matrix is the exact tally (C01) and IRV conserves ballots.",
  "every input string", "End-to-end over all strings.", ["abiflib/core.py:convert_abif_to_jabmod", "abiflib/pairwise.py", "abiflib/irvtally.py", "abiflib/scorestar.py"])
p("C37", "Which candidates written on a voteline are kept",
  "Every candidate written bare, in [brackets], or in \"quotes\" with a rating, appears in the parsed prefs. (A quoted candidate without a rating is silently dropped: the expectation that it is kept is refuted.)",
  "every preference text", "Depends on the syntax mix.", ["abiflib/core.py:_extract_candprefs_from_prefstr (lines 321-323)"])
p("C38", "Metadata lines",
  "A line {key: value} with simple key and value sets metadata[key] = value as text (key 'ballotcount' stored as 'ballotcount_abif_metadata'), touching nothing else; the last line for a key wins.",
  "all admissible keys and values", "Unbounded inputs, backtracking regex.", ["abiflib/core.py:_process_abif_metadata", "abiflib/abifregex.py:METADATA_REGEX"])
# ---------------------------------------------------------------- ABIF writer / roundtrip
p("C39", "ABIF round trip preserves the election",
  "For every well-formed model, parsing the ABIF text written from it succeeds and yields the same candidate table, the same quantities and, on every voteline, the same order of preference and the same effective ratings; hence the same pairwise matrix.",
  "all well-formed models of any size (conditions stated in the theorem)", "Encode/decode over unbounded models.", ["abiflib/core.py:convert_jabmod_to_abif", "abiflib/core.py:convert_abif_to_jabmod"])
p("C40", "ABIF round trip for arbitrary parsed models",
  "For every text that parses, if its tokens are nonempty and free of # [ ] > = comma, double quotes and outer white space, and no fully rated ballot has ratings against its ranking, then writing the parsed model and reading it again succeeds and gives, line for line, the same quantities, candidates, order of preference and ratings, the same ballot total and pairwise counts, and with plain tokens the same candidate table and pairwise matrix. (Without the conditions this is refuted: ratings that contradict the ranking reorder the ballot; names of candidates whose token needs brackets are dropped, and so is such a candidate nobody ranks; a comma-space inside brackets loses the space.)",
  "every text that parses", "All texts; the failures need particular combinations.", ["abiflib/core.py:_get_votelinestr_from_jabvoteline", "abiflib/core.py:_prefstr_from_ratings", "abiflib/abifregex.py:CANDLINE_REGEX"])
p("C41", "ranklist_from_jabmod_voteline orders by preference",
  "The returned list is a permutation of the candidates on the line, ordered by rank when ranks are present, else by decreasing rating, stable with respect to the stored order.",
  "every voteline", "All permutations.", ["abiflib/core.py:ranklist_from_jabmod_voteline"])
# ---------------------------------------------------------------- nameq
p("C42", "nameq round trip",
  "convert_nameq_to_jabmod(convert_jabmod_to_nameq(m)) has, in order, one ballot per unit of qty with exactly the same candidates (any Unicode names) in the same order and the same ranks, and the same pairwise matrix.",
  "all models with integer ranks and arbitrary (surrogate-free) candidate names", "URL/UTF-8 codec over all strings.", ["abiflib/nameq.py:convert_nameq_to_jabmod", "abiflib/nameq.py:convert_jabmod_to_nameq"])
p("C43", "nameq ballot count",
  "convert_nameq_to_jabmod reports ballotcount = number of lines = number of votelines, each of qty 1, and all candidates on votelines are in the candidate table.",
  "every input string that parses", "All strings.", ["abiflib/nameq.py:convert_nameq_to_jabmod"])
# ---------------------------------------------------------------- consolidate / csv
p("C44", "Consolidation merges exactly the identical votelines",
  "consolidate_jabmod_voteline_objects leaves one voteline per distinct set of preferences (in order of first appearance) with the sum of the quantities; the ballot total and, for each preference set, its total are preserved; it is idempotent.",
  "every model", "Uses JSON text as key; injectivity over all models.", ["abiflib/core.py:consolidate_jabmod_voteline_objects"])
p("C45", "csvrank output has one row per ballot",
  "get_ranking_output_csv emits a header and exactly sum(qty) rows, each carrying the ballot's rank per candidate column and blank where unranked, with fresh sequential voter ids unless the line has one; a voteline with qty <= 0 raises ABIFVotelineException.",
  "every model", "All sizes.", ["abiflib/core.py:get_ranking_output_csv"])
# ---------------------------------------------------------------- importers
p("C46", "Debian tally conversion preserves each vote",
  "For each 'V:' line the ABIF line produced by convert_debtally_to_abif lists exactly the options given a rank 1..n, tier by tier in rank order, with qty 1 and the voter's id; reading that ABIF back gives the option table, those ballots without ratings, and the metadata passed in; a vote that ranks an undeclared option raises IndexError. (Option names must contain no colon followed by white space: the code drops everything before the last one.)",
  "every tally sheet of option lines, vote lines (marks 1-9 or dash) and other lines", "All strings.", ["abiflib/debtally.py:convert_debtally_to_abif"])
p("C47", "Debian option tokens are short and distinct",
  "Each option gets a token of at most 20 characters, of ASCII letters and digits, and options whose abbreviations differ get different tokens. (That all options get different tokens is refuted, for every hash.)",
  "every list of option names, every hash function", "All strings.", ["abiflib/debtally.py:_get_short_option_names", "abiflib/debtally.py:_short_token"])
p("C48", "PrefLib conversion preserves each ranking",
  "For every PrefLib ranking line with tiers of valid alternative numbers, the ABIF line produced ranks the corresponding names in the same tiers with the same quantity; numbers above the number of alternatives raise IndexError. (Alternatives must be declared in order: the code ignores the declared numbers, and number 0 silently denotes the last alternative.)",
  "every PrefLib text of that shape", "Unbounded tiers.", ["abiflib/preflib.py:_extract_rankings_from_preflib_str", "abiflib/preflib.py:convert_preflib_str_to_abif"])
p("C49", "PrefLib to tally, end to end",
  "Parsing the converted text yields, for every ranking line, exactly the given quantity and rank = tier index for each alternative, the alternatives as candidate table, and the total ballot count (names of ordinary characters; a comma in a name is refuted).",
  "every such PrefLib text", "Composition of two codecs.", ["abiflib/preflib.py", "abiflib/core.py:convert_abif_to_jabmod"])
p("C50", "SF ballot images are grouped into ballots without loss",
  "_sftxt_convert_to_ballots divides the image lines of the chosen contest, in order, into the maximal runs of lines with one voter id, and yields for each run one ballot with the id fields of its first line and one vote (rank, candidate, overvote/undervote flag) per line; lines of other contests are ignored; the first line of the contest with a non-numeric rank, an unknown candidate id or both flags set ends the conversion with ValueError, KeyError or ValueError. (With no line of the contest it yields one ballot without fields instead of nothing.)",
  "every sequence of image lines, candidate pool and contest", "All histories.", ["abiflib/sftxt.py:_sftxt_convert_to_ballots"])
p("C51", "SF conversion counts every ballot once",
  "convert_sftxt_to_jabmod succeeds exactly on files with long enough lines, a Contest record, at least one image line of the first contest, and only well-formed lines of it; then ballotcount = number of runs of lines of one voter = sum of the quantities of the votelines, each ballot gives a candidate the rank on the last of its lines naming that candidate, every count that depends on preferences only is the same after consolidation, and every token on a voteline is in the candidate table. Tokens are at most 20 letters, digits or underscores. (Two candidates whose names agree on those 20 characters become one, and for a candidate marked twice the lower choice wins.)",
  "every pair of input files", "All sizes.", ["abiflib/sftxt.py:convert_sftxt_to_jabmod", "abiflib/sftxt.py:_sftxt_lookuplines2candpool", "abiflib/sftxt.py:_short_token"])
p("C52", "Fixed-width fields are read exactly",
  "Every line of at least the specified width is cut into the specified consecutive fields (field i = the characters after lastchar(i-1) up to lastchar(i)), which put together are the beginning of the line; a shorter line raises ValueError. (The intended check of the declared lengths never fires; a declared length 0 raises IndexError.)",
  "every field specification and every text", "All strings.", ["abiflib/sftxt.py:sftxt_read_fieldspec", "abiflib/sftxt.py:read_sftxt_blob", "abiflib/sftxt.py:read_sftxt_file"])
# ---------------------------------------------------------------- misc
p("C53", "Token shortening",
  "utf8_string_to_abif_token returns an ASCII alphanumeric name that fits unchanged; otherwise every run of other characters becomes one underscore, every WRITE_IN_ becomes wi_ and the result is cut to max_length. The result has at most max_length characters, all letters, digits or underscores if the name has no newline, and is its own token. (A final newline can survive, and distinct names can have the same token: refuted.)",
  "every string", "All strings.", ["abiflib/util.py:utf8_string_to_abif_token"])
p("C54", "clean_dict makes results JSON-serialisable and changes nothing else",
  "clean_dict replaces every set reachable through dicts and lists by a list of its elements and leaves all other structure unchanged; it is idempotent; the result can be serialised iff no reachable tuple contains a set. (So a set inside a tuple stays: the unconditional claim is refuted.)",
  "every nested value", "Structural induction.", ["abiflib/core.py:clean_dict"])
p("C55", "_modify_jabmod updates exactly the addressed value",
  "After modifying the value at a path, reading that path gives the new value and reading any path that diverges from it gives what it gave before (for paths without negative list positions: with them, two paths can name one place, refuted). It succeeds iff everything but the last step exists and can hold the last key.",
  "every nested value and path", "Lens laws.", ["abiflib/core.py:_modify_jabmod"])
p("C56", "Diagram edges match the matrix",
  "copecount_diagram draws one node per candidate, labelled with its record, and for each pair of distinct candidates one arrow from the one with more votes to the other (both arrows on a tie) labelled with both figures, and no other arrow; it raises ValueError iff there are no candidates.",
  "every pairwise matrix", "All matrices.", ["abiflib/vizelect.py:copecount_diagram"])
p("C57", "HTML table shows each contest exactly once with correct figures",
  "The html table has one row per candidate by decreasing wins, all rows equally wide. Each unordered pair of distinct candidates appears in exactly one cell, in the row of the candidate placed lower, with the two figures of the pairwise matrix; the remark on ties is shown iff some cell is not won by the candidate placed higher. (The claim that exactly those cells carry a dagger is refuted: the last one always loses it.) The text tables show the same matrix.",
  "every election", "All matrices.", ["abiflib/html_output_pairwise.py:htmltable_pairwise_and_winlosstie", "abiflib/textoutput.py:texttable_pairwise_and_winlosstie", "abiflib/textoutput.py:textgrid_for_2D_dict"])
p("C58", "Re-running a fetch is safe",
  "fetch_web_items never changes an existing file, wherever it stops and over any history of runs; with complete entries it asks for exactly the missing files, in order, and stores what was sent; after a run in which every reply was 200 a second run asks and writes nothing; a crash leaves only old files and beginnings of contents sent. (Refuted: that a later run repairs a file cut off by a crash; that a failed download is reported.)",
  "every fetchspec, file system, server behaviour and crash point", "Quantifies over crash points and histories.", ["fetchmgr.py:fetch_web_items", "fetchmgr.py:fetch_url_to_subdir"])
p("C59", "Each download becomes its own ABIF file",
  "process_extfilelist handles its entries one after the other, each with the last source format named so far (else the default), and stops at the first that fails, leaving the later ones undone. Entries with format abif become links that lead to their downloads (for plain names below the ABIF directory), running again changes nothing; entries with a convertible format get exactly the conversion of all their downloads, with the description, and nothing else changes but new directories; a missing input ends the program before anything is changed; an unknown format is an exception. (Refuted: each entry is converted with its own format or the default; links in subdirectories lead to the download; a missing abif download is noticed; downloads are never deleted or overwritten.)",
  "every list of entries, every tree of files, directories and links, every working directory", "Depends on the sequence of entries and on path resolution in arbitrary trees.", ["fetchmgr.py:process_extfilelist", "fetchmgr.py:convert_files_to_abif", "fetchmgr.py:convert_nameq_tarball_to_abif_files"])
p("C60", "Electowidget conversion",
  "convert_widj_to_jabmod raises NameError on every input, because it reads a global name that its module does not define (the expectation that it converts a well-formed widj object is refuted). If the name were defined, every well-formed widj object would give a jabmod with exactly its candidates' display names, one line per inline ballot with the quantity and ratings given, and the remaining fields as metadata.",
  "every widj object", "Universal failure; all nested objects.", ["abiflib/widjfuncs.py:convert_widj_to_jabmod", "abiflib/widjfuncs.py:_map_widj_ballots"])
p("C61", "What the command line reads and prints",
  "abiftool.py reads with -f, else with what follows the last '.' of the first file name, else as 'abif'; an unsupported format is reported and nothing is read; files are opened in order up to the first missing one, which is named, and nothing else is printed. For all formats but sftxt the output is that of the last file alone; standard input gives what a file with that text gives. The order and repetition of -m options do not matter; the text output is exactly the chosen sections in a fixed order; -t paircountjson prints the pairwise counts. (Refuted: failures give a failing exit status; '-' needs -f; all the files named are counted; paircountjson with -m IRV prints the counts.)",
  "every argument list, file system and library behaviour", "All strings and combinations of options.", ["abiftool.py:main"])
p("C62", "The log file",
  "Over any history of calls at most one log file is opened. If ABIFLIB_LOG is usable at the first call that asks for the log, the file gets, behind what it held, the texts of that call and of all later ones up to close_file, in call order, and no other file is touched; otherwise nothing is ever written. (Refuted: a wrong ABIFLIB_LOG is reported at every call; the log is reopened after close_file; log can be called from a script's top level.)",
  "every sequence of calls and environments", "History property.", ["abiflib/devtools.py:LogfileSingleton", "abiflib/devtools.py:abiflib_test_log", "abiflib/devtools.py:abiflib_test_logblob"])
p("C63", "Candidate lines",
  "A line =token:[name] with simple token and name sets candidates[token] = name and touches nothing else. (A bracketed token =[tok]:[name], which the ABIF documentation allows, is silently ignored: refuted.)",
  "all admissible tokens and names", "Unbounded inputs, backtracking regex.", ["abiflib/core.py:_process_abif_candline", "abiflib/abifregex.py:CANDLINE_REGEX"])
p("C64", "A jabmod survives its JSON file",
  "json.loads reads back exactly the object that json.dumps wrote, with any indentation; so a jabmod written with -t jabmod and read with -f jabmod is the same jabmod, two different jabmods never give the same file, and the JSON printed for the pairwise counts holds under [a][b] the number of ballots ranking a above b.",
  "every jabmod whose strings are Unicode text, every indentation", "All strings and nested values, recursive-descent parser.", ["abiftool.py:main (lines 177, 237, 268)", "abiflib/util.py:convert_text_to_abif"])
p("C65", "Converting any supported text to ABIF keeps the election",
  "convert_text_to_abif: the ABIF text it returns for a PrefLib file, a Debian tally sheet, a pair of San Francisco files, a jabmod in a JSON file or an ABIF text, when read again, holds the ballots of the source: one voteline per ranking with its quantity, the same candidates and the same order (PrefLib, Debian, jabmod, ABIF), respectively the same number of ballots and of voters for each candidate over each other (San Francisco); the candidates keep their names, a tally sheet keeps the metadata passed in. Any other format raises ABIFVotelineException, missing input texts raise IndexError, texts beyond the first (second for sftxt) and metadata for other formats than debtally are ignored, an ABIF text without votelines ends the program. (Refuted: widj files are converted; they always raise NameError.)",
  "every format name, list of texts, metadata and hash; well-formed sources as in C40, C46, C49, C51, C64", "Composition of two parsers and a writer over all strings.", ["abiflib/util.py:convert_text_to_abif"])
p("C66", "IRV: what a ballot says below a candidate cannot affect that candidate (later-no-harm, later-no-help)",
  "Take two elections with the same candidates whose ballots differ only below candidate w: the same numbers of ballots, w listed on the same ones, the same candidates above w in the same order. If w is among the winners IRV reports for one of them, IRV reports for the other exactly the same thing: the same winners, rounds and per-round figures. Hence w wins one iff it wins the other.",
  "every pair of elections with strictly ranked ballots differing only below w, every candidate w, every outcome of the lot and of set ordering",
  "It compares two elections of arbitrary size over every schedule of random tie-breaks; tests fix one pair.",
  ["abiflib/irvtally.py:_irv_count_internal", "abiflib/irvtally.py:_get_valid_topcand_qty", "abiflib/irvtally.py:IRV_dict_from_jabmod"])
p("C67", "IRV: additional first places do not hurt the winner; monotonicity and participation fail",
  "Adding any ballots that put the sole IRV winner strictly first keeps it the sole winner, provided the original count broke no tie for last place before its final round. In contrast (refuted, with elections free of ties): raising the winner on existing ballots can make it lose, and adding ballots that rank the winner above x can make x win.",
  "every strictly ranked election, every list of added ballots with the winner first, every outcome of the lot",
  "The claim relates every election to all its extensions; tests fix one pair of elections.",
  ["abiflib/irvtally.py:_irv_count_internal", "abiflib/irvtally.py:IRV_dict_from_jabmod"])
p("C68", "Copeland and the pairwise table respond sensibly to changes of the ballots",
  "Raising a Copeland winner on any ballots, leaving all comparisons of the others alone, keeps it a winner and makes nobody else one. Renaming the tokens (injectively) renames the table, the win-loss-tie list and the winners and changes nothing else; reordering the candidate table changes no figure and no winner; multiplying every quantity by k > 0 multiplies the cells by k and changes no win, loss, tie or winner; counting two sets of ballots together gives the sum of the two tables. (Refuted: the sole winner never wins the reversed ballots too; without ties that does hold.)",
  "every tallyable election, every injective renaming, permutation, factor, pair of ballot sets and pair of elections differing by raising the winner",
  "Each claim relates one election to all its variants.",
  ["abiflib/pairwise.py:pairwise_count_dict", "abiflib/pairwise.py:full_copecount_from_abifmodel", "abiflib/pairwise.py:get_Copeland_winners"])
p("C69", "Score and STAR respond sensibly to changes of the ballots",
  "The scores and supporter counts of two sets of ballots counted together are the sums; a candidate that wins on score in both wins in the union; additional ballots that rate the score winner as high as anybody keep it the winner; rating the winner higher and others lower keeps it the winner. Promoting the STAR winner (its ratings and its place on ballots, other ratings and comparisons untouched) keeps it the STAR winner against the same other finalist. A candidate that loses head to head to everybody never wins STAR. The order of the votelines does not matter, and renaming tokens renames the results.",
  "every scorable (and, for STAR, tallyable) election and each such variant of it",
  "Each claim relates one election to all its variants, including every tie in the score order.",
  ["abiflib/scorestar.py:enhanced_score_result_from_abifmodel", "abiflib/scorestar.py:STAR_result_from_abifmodel", "abiflib/scorestar.py:basic_score_result_from_abifmodel"])
p("C70", "A whole run of fetchmgr.py",
  "A fetchspec that is missing, unreadable, not a JSON object or names neither a repository nor web URLs raises an exception and nothing is requested or changed. With gitrepo_url exactly one git command runs: a clone when the directory is not there, else a pull inside it, after which the current directory is the same again; nothing is requested from the web. With web_urls no existing file, link or directory is changed by the downloads, however they end; URLs are requested in the order of the fetchspec, each for a local path not there yet, and a 200 answer's bytes are the local file's content; if everything is there nothing is requested. Afterwards the ABIF file of a preflib/debtally/sftxt entry holds the conversion of the downloaded texts. Fetchspecs are processed in order, the first exception ends the run, no argument gives a message and exit status 1. (Refuted: a failed clone is reported as such; a local copy path such as new/.././f never overwrites f.)",
  "every fetchspec, file tree with links, server behaviour over time, git behaviour and argument list",
  "History over an arbitrary file tree with arbitrary answers from the outside.",
  ["fetchmgr.py:process_fetchspec", "fetchmgr.py:fetch_web_items", "fetchmgr.py:fetch_url_to_subdir", "fetchmgr.py:checkout_repository", "fetchmgr.py:update_repository", "fetchmgr.py:main"])
p("C71", "The San Francisco script",
  "python3 sftxt.py lookupfile imagefile writes, with the format json, an array of one object per voter of the contest (the --contestid one, else the lookup file's first), in file order, with the fields of the voter's first image line and one vote per line (rank, candidate, overvote or undervote), and json.load gives that array back; with --imagelines the nine fields of every line of every contest. urlencoded writes one line per voter from which parse_qs reads the rank of each candidate on the first three image lines, a candidate marked twice with the first rank; csv96 writes the numbered candidates and then one line per voter with the numbers of the candidates of the first three lines; a voter with fewer than three lines ends either with IndexError after the lines of the voters before have been written. abif and jabmod print what convert_text_to_abif and the jabmod conversion make of the two files whatever --contestid, --imagelines and --consolidate say, and leave the file of -o empty. No other file than that of -o changes; an unknown format is a ValueError; a missing file a FileNotFoundError. (Refuted: --contestid selects the contest for abif; a fourth choice appears in urlencoded output.)",
  "every pair of files, every combination of options",
  "Arbitrary file contents and voter groupings, with the text read back through parse_qs or json.load.",
  ["abiflib/sftxt.py:main", "abiflib/sftxt.py:_sftxt_dump_url_encoded", "abiflib/sftxt.py:_sftxt_dump_csv1996fmt", "abiflib/sftxt.py:read_sftxt_file"])
p("C72", "The text reports say what was counted",
  "The IRV report lists every round in order with its number, candidates, starting, exhausted, over- and counted votes, one line per candidate and those eliminated, then the winner or all winners; without equal ranks those figures are the ballots on which each remaining candidate is first. The score and STAR reports list all candidates by falling score with score and number of supporters, the voter count and the winner; STAR adds both finalists with the ballots that prefer each and the abstentions. Refuted: the Copeland report names one of several tied winners only; the IRV line 'Total counted votes' need not be the sum of the candidates' lines.",
  "every election the tally accepts, every outcome of the lots",
  "Text assembled from arbitrary elections and lots.",
  ["abiflib/irvtally.py:get_IRV_report", "abiflib/scorestar.py:score_report", "abiflib/scorestar.py:STAR_report", "abiflib/pairwise.py:get_Copeland_winners"])
p("C73", "The JSON form of IRV, score and STAR results can be read back",
  "What -t irvjson (or -t json -m IRV) prints is JSON text; read back it is an object with the names, the winners, the winner text, the tie flag, for every round the votes of every remaining candidate, and for every round the figures of that round; without equal ranks these are the ballots on which each candidate is first among the remaining, and the ballots that list none of them. What -t json -m STAR prints is read back as the candidates by falling score, their scores, supporters and ranks, the totals, both finalists, the ballots that prefer each, the abstentions and the winner. Sets come out in an order that may differ from run to run, with the same members. Refuted: -t json without such a modifier prints JSON.",
  "every election the tally accepts whose names are Unicode text, every order of sets, every outcome of the lots, every ABIF file",
  "A round trip through two languages for arbitrary nested results.",
  ["abiftool.py:main", "abiflib/core.py:clean_dict", "abiflib/irvtally.py:IRV_dict_from_jabmod", "abiflib/scorestar.py:STAR_result_from_abifmodel", "abiflib/scorestar.py:enhanced_score_result_from_abifmodel"])
p("C74", "The HTML page shows the results and nothing of it can be mistaken for markup",
  "Whatever characters candidate names, tokens, titles and descriptions contain, every tag of the page is one the program itself wrote; the texts between the tags are exactly, in this order, the title (of the metadata, else the file name, else a fixed text) twice, the description (else the list of names), and for each row label, record, caption, the votes both ways of each contest and the losses caption, then the remark if there is one. Both votes of every contest and every candidate's record are shown. The STAR page is one pre element. Refuted: it shows the report as it is (a name with one of & < > and quotes is escaped twice).",
  "every election the tally accepts, every layout of blanks between tags, every ABIF file",
  "No injection is a claim about all names.",
  ["abiflib/html_output_pairwise.py:htmltable_pairwise_and_winlosstie", "abiflib/html_output_common.py:get_abif_title", "abiflib/html_output_common.py:get_abif_desc", "abiflib/html_output_common.py:get_title_for_html", "abiflib/html_output_scorestar.py:html_score_and_star", "abiftool.py:main"])
p("C75", "Retouching a text table changes only the rule below the header and two bars per line",
  "In the table drawn by texttable exactly these characters change: dashes of the fourth line become equals signs, and the first two bars of each line with at least two become plus signs; line count, line lengths and everything else stay. A table of fewer than four lines raises IndexError. -t text -m winlosstie and -m pairwise print the tables of C57 treated this way. Refuted: no candidate token is changed (one with a bar is; so are dashes in a heading of more than two lines).",
  "every drawn table, every position in it, every ABIF file",
  "Every character of every table.",
  ["abiflib/textoutput.py:textgrid_for_2D_dict", "abiflib/textoutput.py:texttable_pairwise_and_winlosstie", "abiftool.py:main"])
p("C76", "The library's scripts print what the command line tool prints, and their output can be piped",
  "irvtally.py FILE prints what abiftool -t text -m candlist -m IRV does, with -j what -t irvjson does; pairwise.py the file with headings and the -m pairwise grid of width 160; util/copedot.py with dot or svg what -t dot or -t svg does, from a file or standard input. scorestar.py prints the file, the ballots, both results as JSON that parse to the right values, both reports, and scaled scores adding up to 50. Saving what debtally.py, preflib.py or abiftool -t jabmod print and giving it to abiftool yields the same output as the original, whatever format is asked for and whatever newlines were in it. The page scripts show the votes and records of the election. core.py prints the preferences of a text as JSON. The help text names exactly the accepted formats and modifiers. Refuted: a missing file ends the scripts as it ends abiftool (status 1 and 0); scorestar.py prints the results it has (nothing with one candidate or no points); copedot --outfmt json prints the counts (it prints the diagram in graphviz's JSON); modify_jabmod does something.",
  "every file, every accepted combination of options, every random choice",
  "It relates whole runs of two programs for every input file, through newline translation and JSON.",
  ["abiflib/irvtally.py:main", "abiflib/pairwise.py:main", "abiflib/scorestar.py:main", "abiflib/debtally.py:main", "abiflib/preflib.py:main", "abiflib/html_output_pairwise.py:main", "abiflib/html_output_scorestar.py:main", "abiflib/core.py:main", "util/copedot.py:main", "abiftool.py:gen_epilog", "abiftool.py:get_keys_from_dict_list"])
p("C77", "configtool lists every archive entry of a fetchspec once, in order",
  "For a fetchspec with srcfmt nameq_archive, util/configtool.py prints a list with one entry per archive entry, in the same order: filename is its abifloc; id is the part after the last slash without .abif, or null if the name does not end so; title is its title or else the id; tags is the tags joined by comma and blank, or null; desc is its desc or null. For other fetchspecs only srcfmt is printed. A missing file gives a message and status 1. Known tags are translated to state and place. Refuted: an unknown tag stays as it is (it is split into letters; the translation is not used anyway).",
  "every fetchspec, every path and title",
  "Every list of entries and every file name.",
  ["util/configtool.py:make_nameq_based_file_list", "util/configtool.py:convert_fetchspec_to_newdict", "util/configtool.py:_fix_tag", "util/configtool.py:main"])
p("C78", "Reading a file makes up no characters, so what is read can always be stored",
  "Every character of every token, name, rating, delimiter, comment, voter id and metadata value the reader returns is a character of the file. So if the file is Unicode text, the model it is read as can be written as JSON and loads back to the same model.",
  "every text, every option of the reader",
  "A statement about every path through the regular expressions and the tokeniser.",
  ["abiflib/core.py:convert_abif_to_jabmod", "abiflib/core.py:_extract_candprefs_from_prefstr", "abiflib/core.py:_parse_prefstr_to_dict"])
p("C79", "A file's election does not depend on the order of its lines, and joined files add up",
  "Reordering the lines of a file changes neither whether it can be read, nor the ballots (as a collection), the ballot count or the set of candidates; the names stay too if the candidate lines keep their order. Pairwise counts, win-loss-tie records, Copeland winners and scores are then the same; score ranking and STAR result too if no two scores are equal; IRV rounds and winners too if no ballot ranks two candidates equal and no lot is drawn. If the same candidate lines start both files and name everybody, the results agree in every detail. A candidate's name is the one in the last line naming it, else the token; only tokens named or mentioned are candidates. Writing one file after another adds all counts and unites the candidates. Replacing q:prefs by q1:prefs and q2:prefs with q = q1 + q2 changes no count, candidate or score. Refuted without the provisos: the IRV winner, the STAR winner and the names can depend on the order.",
  "every file, every reordering of its lines, every pair of files, every random choice",
  "A claim about all permutations of all files.",
  ["abiflib/core.py:convert_abif_to_jabmod", "abiflib/core.py:_process_abif_prefline", "abiflib/core.py:_process_abif_candline", "abiflib/pairwise.py:pairwise_count_dict", "abiflib/scorestar.py:STAR_result_from_abifmodel", "abiflib/irvtally.py:IRV_dict_from_jabmod"])
p("C80", "Instant runoff treats candidates alike and depends on proportions only",
  "Renaming all tokens, no two becoming the same, renames winners, rounds and reports and changes nothing else, or raises the same error; the counts then differ at most in the order of entries, whatever order sets are enumerated in, if no lot is drawn. Multiplying every quantity by the same positive number multiplies every reported count by it and leaves eliminations, ties, lots, winners and winner names as they are. The order in which candidates are declared does not affect winners or counts if no lot is drawn. A candidate whom no ballot lists, declared anywhere, does not affect the winners if no ballot ranks two candidates equal, somebody voted and no lot is drawn. Refuted: the order of declaration never matters (it decides lots); an unlisted candidate is harmless with equal ranks (the additional round discards an overvote the first one skipped); a winner of two files wins the joined file.",
  "every election, every renaming, factor, order of candidates, order of sets and outcome of lots",
  "It compares two runs for every election and every transformation of it.",
  ["abiflib/irvtally.py:IRV_dict_from_jabmod", "abiflib/irvtally.py:_irv_count_internal", "abiflib/irvtally.py:_discard_toprank_overvotes", "abiflib/irvtally.py:_get_valid_topcand_qty"])
p("C81", "What instant runoff counts on ballots with equal ranks",
  "In every round a voteline still present counts for the highest candidate on it who has a rank of their own among the candidates still standing (everybody above shares a rank with somebody), and is exhausted if nobody has. Before that the round discards votelines whose highest place among the standing candidates is shared, going through them in order but never looking at the line right after a discarded one; discarded lines stay out of all later rounds. The reported counts, exhausted, overvote, starting and ballot totals of every round are exactly these numbers; each ballot counts for at most one candidate; if no two such lines are adjacent, exactly the lines with a shared first place go; without equal ranks this is the usual rule. Two elections with the same candidate table whose votelines have, in order, the same quantities and the same preferences have the same result to the last figure, whatever the rank numbers are.",
  "every election with ranks below 9999999999 and no empty token, every round, every outcome of lots and set order",
  "It is about every combination of shared ranks over every sequence of rounds.",
  ["abiflib/irvtally.py:_discard_toprank_overvotes", "abiflib/irvtally.py:_get_valid_topcand_qty", "abiflib/irvtally.py:_irv_count_internal"])
p("C82", "Writing ABIF settles after one pass",
  "Read any ABIF text, write it as ABIF, read that back: the election so obtained is a fixed point. Writing it gives a text that is read back as exactly this election (votelines in the same order with the same quantities, ranks, ratings, delimiters and preference text; the same candidate table in the same order; the same metadata in the same order), with or without cleanws, so from the second pass on the command line tool prints the file it reads. This holds for tokens that can be written, ratings that agree with the ranks, ratings stored as numbers and plain metadata; votelines and candidate table settle whatever the metadata; with ratings behind quoted names everything settles one pass later. The first pass itself does add a metadata line (ballotcount_abif_metadata), so the second file is one line longer than the first.",
  "every text the reader accepts (under the stated conditions), both settings of cleanws at every reading, every run of the tool on a file or standard input",
  "It is an equality of whole elections for every text and every number of passes.",
  ["abiflib/core.py:convert_abif_to_jabmod", "abiflib/core.py:convert_jabmod_to_abif", "abiftool.py:main"])
p("C83", "abiftool -t abif in front of a pipe changes no result",
  "For an election read from ABIF text whose tokens need no brackets and whose ratings agree with its ranks: the text abiftool -t abif prints, saved in a file or piped into abiftool -f abif -, gives for every output that counts the ballots (dot, svg, html, html_snippet, irvjson, json, paircountjson, winlosstiejson, and text with every section) and every modifier the output and the exit status that the original file gives. For the functions: the same candidate table, pairwise counts, Copeland counts, scores, STAR result and instant runoff result (the same lots and set orders given). The STAR section needs the first voteline to rate all or none of its candidates, the pages need plain metadata; without these conditions, or with brackets or ratings against the ranks, the outputs can differ.",
  "every such text (shorter than 9999999999 characters), every output format, width and set of modifiers, every outcome of lots, every rendering library",
  "It compares two programs on every input and option.",
  ["abiftool.py:main", "abiflib/core.py:convert_jabmod_to_abif", "abiflib/core.py:convert_abif_to_jabmod", "abiflib/irvtally.py:IRV_dict_from_jabmod", "abiflib/scorestar.py:STAR_result_from_abifmodel", "abiflib/pairwise.py:pairwise_count_dict"])
p("C84", "Only the number of ballots of each kind matters; consolidating changes no result",
  "Two elections with the same candidate table in which, for every way of marking the candidates (who is listed, with which rank and rating), equally many ballots are marked that way have the same pairwise counts, win-loss-tie records, Copeland scores, score table and STAR result and, when no ballot ranks two candidates equal, the same IRV count down to the last figure of every round. So it does not matter in how many votelines the ballots come, or in which order: merging votelines (consolidate) or splitting one leaves every result alone, and adding -m consolidate to a run of abiftool that counts the ballots of an ABIF text changes nothing of what it prints. With equal ranks IRV does change: of two adjacent votelines sharing the first place only the first is discarded, and consolidating joins them. Given alone, -m consolidate also replaces the default report sections, so nothing is reported.",
  "all pairs of elections with the same ballots, all orders a Python set may be walked in and all random choices, all ABIF texts and all output formats that count ballots",
  "It compares the results of two arbitrary elections that agree as multisets of ballots.",
  ["abiflib/core.py:consolidate_jabmod_voteline_objects", "abiflib/irvtally.py:IRV_dict_from_jabmod", "abiflib/pairwise.py:pairwise_count_dict", "abiflib/scorestar.py:basic_score_result_from_abifmodel", "abiflib/scorestar.py:STAR_result_from_abifmodel", "abiftool.py:main"])
p("C85", "How a run on an ABIF text ends: which outputs can fail, when, and with what",
  "A run of abiftool on an ABIF text that can be read ends normally with its output, or with one of these exceptions and nothing printed, and for these reasons only: csvrank with a voteline for zero ballots (ABIFVotelineException); dot, svg, html_snippet with svg, irvjson and IRV in json, paircountjson or text without a candidate (ValueError); score or Copeland in text without a candidate (IndexError); STAR in json with fewer than two candidates, and in text when the first voteline ranks nobody or starts with a rated candidate and there are fewer than two (IndexError). In text the first selected section that fails decides. So with two candidates, no voteline for zero ballots and a first voteline that ranks somebody, every output format with every modifier succeeds with exit status 0. A text that cannot be read ends the run with status 1, by ABIFVotelineException, TypeError, IndexError or AttributeError, and only the first of these is explained on standard output.",
  "all ABIF texts of Unicode scalar values, all output formats, all sets of modifiers, widths and options, all sources of the text, all orders a Python set may be walked in and all random choices, every texttable drawing of at least four lines",
  "It is a claim about every run: no exception other than those named can end it, for any text, output format and set of modifiers.",
  ["abiftool.py:main", "abiflib/core.py:convert_abif_to_jabmod", "abiflib/core.py:convert_jabmod_to_abif", "abiflib/core.py:get_ranking_output_csv", "abiflib/irvtally.py:IRV_dict_from_jabmod", "abiflib/scorestar.py:STAR_report", "abiflib/pairwise.py:Copeland_report"])
p("C86", "The counts abiftool prints for PrefLib files, Debian tally sheets, nameq files and San Francisco files",
  "With -t paircountjson, abiftool prints for a PrefLib file, for every two alternatives, the number of voters who rank the first in an earlier tier than the second, or rank it while leaving out the second; for a Debian tally sheet, the number of votes that give the first option a smaller number, or a number while the second has none (numbers greater than that of the options count as none); for a nameq file, the number of lines that give the first name a smaller number, or a number while they do not mention the second; for the two San Francisco files (master lookup first, ballot image second), the number of voters of the first contest whose last line with the first candidate has a smaller number than their last line with the second, or who have no line with the second. The rows are those of the alternatives, options, names or candidates of the file. With one San Francisco file only the run fails. abiftool -t nameq on an ABIF text, read again with -f nameq, gives the same counts, but one ballot more, an empty one.",
  "all PrefLib files, Debian tally sheets, nameq texts and pairs of San Francisco files that keep to their formats; for the pipe, all readable ABIF texts of Unicode scalar values; the text in a file or on standard input",
  "The numbers have to be right for every file; the readers go through different code and meet only in the output.",
  ["abiftool.py:main", "abiflib/preflib.py:convert_preflib_str_to_abif", "abiflib/debtally.py:convert_debtally_to_abif", "abiflib/nameq.py:convert_nameq_to_jabmod", "abiflib/nameq.py:convert_jabmod_to_nameq", "abiflib/sftxt.py:convert_sftxt_to_jabmod", "abiflib/pairwise.py:pairwise_count_dict"])
p("C87", "Options and endings of runs on PrefLib files, Debian tally sheets, nameq files and San Francisco files",
  "For every input format except abif, the options --cleanws, --add-scores and -m jcomments change nothing: not what is printed, nor how the run ends. A run on a PrefLib file fails in the conversion only with an IndexError, one on a Debian tally sheet likewise, one on a nameq file only with a ValueError; after that it ends like a run on an ABIF text with these ballots: normally with the output and a newline, or with a traceback and nothing on standard output for the reasons listed in C85 (and without C85's message when there are no votes). A run on the two San Francisco files fails with a TypeError when it is to html or html_snippet and a candidate has no name - which is so for the entry cand0 of every such election unless a record names the candidate 0000000 - and when IRV has several winners one of which has no name; otherwise it ends like the others.",
  "all texts of Unicode scalar values in the four formats, all output formats and modifiers, the text in a file or on standard input",
  "Which of the many combinations of formats, modifiers and degenerate elections end in a traceback cannot be enumerated by tests.",
  ["abiftool.py:main", "abiflib/preflib.py:convert_preflib_str_to_abif", "abiflib/debtally.py:convert_debtally_to_abif", "abiflib/nameq.py:convert_nameq_to_jabmod", "abiflib/sftxt.py:convert_sftxt_to_jabmod", "abiflib/html_output_common.py:get_abif_desc", "abiflib/irvtally.py:IRV_dict_from_jabmod"])
p("C88", "An election saved with -t jabmod is the same election for every later run",
  "Whatever the format of the input (abif, jabmod, PrefLib, Debian tally sheet, nameq, widget JSON, the two San Francisco files), abiftool -t jabmod ends normally and prints a JSON object with the metadata, the candidates and the votelines of the election read, null standing for the name of a candidate that has none, or of the consolidated election with -m consolidate. Read back with -f jabmod it is the same election, including which candidates have no name. Two runs with the same options on the same election end alike and print the same whatever the formats they read, so abiftool -f FMT X -t jabmod > Y; abiftool -f jabmod Y OPTIONS prints what abiftool -f FMT X OPTIONS prints, for all output formats and modifiers; -m consolidate may be given in the first command if the OPTIONS have it.",
  "all inputs in the seven formats made of Unicode scalar values, from files or standard input, all output formats, modifiers and widths",
  "The equality of two runs has to hold for every election and every combination of input format, output format and modifiers.",
  ["abiftool.py:main", "abiflib/nameq.py:convert_nameq_to_jabmod", "abiflib/sftxt.py:convert_sftxt_to_jabmod", "abiflib/preflib.py:convert_preflib_str_to_abif", "abiflib/debtally.py:convert_debtally_to_abif", "abiflib/core.py:consolidate_jabmod_voteline"])
p("C89", "The names of the calling functions in the developer's tools",
  "abiflib_stackfunc(i) gives the name of the function i calls up (its own for 0, its caller's for 1, the outermost one's for -1) and raises IndexError for any place outside the stack; abiflib_callstackstr(start, end) never fails and gives the names of the functions from place start up to but without end, joined with ' < ', negative places counted from the outermost function; with the default arguments these are all the callers but the outermost.",
  "all call stacks, all integer arguments",
  "The call stacks and the places asked for are unbounded, with negative and out-of-range places.",
  ["abiflib/devtools.py:abiflib_stackfunc", "abiflib/devtools.py:abiflib_callstackstr"])
p("C90", "What the results show for a candidate without a name",
  "When a candidate has no name (the empty line of the San Francisco files, a null in a jabmod file), abiftool prints what it would if the name were the text None, for every output format and modifier, with these exceptions: the html formats fail (C87) and jabmod has null (C88); in the IRV JSON canddict has null, and so has winnerstr when this candidate is the only winner; in the STAR JSON candname, fin1n, fin2n and winner have null where this candidate is meant, but a tied runoff has None in its text; and whenever IRV is to be shown and has several winners, one of them without a name, the run fails with TypeError and prints nothing.",
  "all elections that can be read, all output formats, modifiers and widths, all orders of Python's sets and all random draws",
  "Which of the outputs show null, None or an error has to be settled for every election, winner and combination of options.",
  ["abiftool.py:main", "abiflib/irvtally.py:IRV_dict_from_jabmod", "abiflib/scorestar.py:STAR_result_from_abifmodel", "abiflib/sftxt.py:convert_sftxt_to_jabmod"])
p("C91", "The command line means what it says",
  "Options may stand before or after the files, each as -f X, -fX, -f=X, --fromfmt X, --fromfmt=X or with the long name abbreviated; the program then runs with the last -f, -t and -w, all the -m in order, and the files in order, and after -- every word is a file. A format or modifier not in the lists, no file, files in two groups with an option between them, or an option that does not exist make it end with status 2, without reading anything and without output; -h shows the help. Whatever the command line is, the program runs only with files, formats and modifiers from its lists, and reads only files named there. -d adds one line after the output of a run that came to its end, which is then no JSON any more.",
  "all command lines, all files and contents, any number of options in any order and spelling",
  "The ways to write and order options are unboundedly many, and the library's rules for them (abbreviations, attached values, groups of files, --) interact.",
  ["abiftool.py:main"])
p("C92", "IRV: candidates already eliminated might as well not have run",
  "Take any round of an IRV count of strict ballots and strike everybody who is out by then from the list of candidates and from all ballots. The count of what is left is exactly the remaining rounds: the same tallies, round for round, and the same winners. If lots are drawn in those rounds they can fall the same way (some schedule gives the same figures, and the rounds that are reported as random or as batch eliminations and the exhausted ballots are the same); if no lot is drawn, this holds for every schedule of both runs. With equal rankings it fails, since a ballot thrown out as an overvote does not come back.",
  "all elections with strict ballots, any number of candidates and votelines, every round, all outcomes of random.choice and of set orders",
  "It compares two runs of the count on different elections, from an arbitrary round of one of them, under all schedules.",
  ["abiflib/irvtally.py:_irv_count_internal", "abiflib/irvtally.py:_eliminate_cands_from_votelines", "abiflib/irvtally.py:IRV_dict_from_jabmod"])
p("C93", "IRV: similar candidates do not split the vote (independence of clones)",
  "Take a set of candidates that every ballot ranks together (all of them or none, nobody else in between) and leave only one of them, k, on the list and on the ballots. If an IRV count of strict ballots is won by w alone, and no round before the last had a tie at the bottom, then the smaller election is won by k alone if w was in the set and by w alone otherwise, whatever random.choice and the set orders do in either run. A complete tie is a real exception: three candidates may share a victory which one of two clones would have won alone.",
  "all elections with strict ballots and non-negative counts, any number of candidates, any set of clones and any representative of it, all schedules of both runs",
  "It relates two runs on different elections round by round; the claim is about every profile in which the group is ranked together.",
  ["abiflib/irvtally.py:_irv_count_internal", "abiflib/irvtally.py:IRV_dict_from_jabmod"])
p("C94", "What the withdrawal of candidates does to the pairwise table, Copeland, score and STAR",
  "Strike some candidates from the list and from all ballots. The pairwise table of the others is the old table without the struck rows and columns; the Copeland winners stay the same if everybody in some group that is kept beats every candidate outside the group (so a Condorcet winner wins whoever else withdraws), but in general the withdrawal of a loser can change them; scores, voter counts and the order of the score list stay the same for the remaining candidates; a STAR result keeps its finalists, their votes and its winner as long as both finalists stay, while the withdrawal of the losing finalist can change the winner.",
  "all elections that can be tallied (ranks below sys.maxsize, readable ratings), any number of candidates and votelines, any set of withdrawn candidates",
  "It compares the results of two different elections, for every election and every set of candidates.",
  ["abiflib/pairwise.py:pairwise_count_dict", "abiflib/pairwise.py:full_copecount_from_abifmodel", "abiflib/scorestar.py:enhanced_score_result_from_abifmodel", "abiflib/scorestar.py:STAR_result_from_abifmodel"])
p("C95", "IRV: what floats and the limit on nested calls can do to a count",
  "The count compares the leader with half of the votes as a float and calls itself once per round. An election with fewer than 2^53 ballots is counted exactly as if the comparison were exact; if it has more rounds than the interpreter allows nested calls, the count ends with RecursionError instead of a result, and in no other case. Both limits are real: for every limit on nested calls (up to 2^24) there is an election with strict ballots and limit + 3 candidates that fails, and with 2^54 + 2 ballots a candidate with exactly half of the votes is declared the winner though the exact rule finds a tie.",
  "all elections with ranks on the ballots and non-negative counts that total less than 2^53, all schedules, all limits on nested calls",
  "Whether rounding can ever matter is a statement about every possible total; the limit is hit only by elections far larger than a test would use.",
  ["abiflib/irvtally.py:_irv_count_internal", "abiflib/irvtally.py:IRV_dict_from_jabmod"])
p("C96", "-t jabmod prints this object: its keys, their order and its values",
  "What -t jabmod prints is the text of one JSON object. Read from an abif, debtally or preflib file it has exactly the keys candidates, metadata, votelines in this order (whatever order the file had); each voteline has qty, comment (null if it has none), prefs, prefstr, in this order, and voterid only if the line has one; each preference has rating, rank and nextdelim in the order in which the program sets them. A nameq line has qty, prefs, nameq, with only a rank in each preference. After consolidation (always for sftxt) each voteline has just prefs and qty. A jabmod file passes through with every key it has, known or not, in its own order; running the program again on what it printed prints the same text. Reading the text back gives the election that the other output formats report.",
  "all texts and files that the program reads without an error, all input formats, modifiers and options, all layouts of an object read as jabmod",
  "The set and order of the keys in a voteline depends on the shape of every entry of the line, on add-scores and on the modifiers; a test fixes one file.",
  ["abiftool.py:main", "abiflib/core.py:convert_abif_to_jabmod", "abiflib/core.py:consolidate_jabmod_voteline_objects", "abiflib/core.py:_add_ratings_to_jabmod_votelines", "abiflib/nameq.py:convert_nameq_to_jabmod", "abiflib/sftxt.py:convert_sftxt_to_jabmod"])
p("C97", "Scaled scores as floats: what rounding can and cannot do",
  "scaled_scores multiplies each score with a rounded factor and adds up the rounded products. For every election whose scores are not negative and add up to less than 2^53, and every target below 2^53: there is an entry for each candidate, in order; equal scores are scaled to equal numbers and a higher score (up to 2^52) to a strictly higher one, so the ranking is never changed; each scaled score is within one part in 2^51 of the candidate's exact share; the total is off the target by at most (n + 2) parts in 2^52 for n candidates; no operation overflows or reaches the subnormal range. The total need not be the target: 9, 1 and 1 points scaled to 50 add up to 50 + 2^-47 (printed as 50.00000000000001).",
  "all elections with non-negative scores totalling less than 2^53 and fewer than 2^50 candidates, all targets from 1 to 2^53 - 1; for the rounding itself all rational numbers",
  "Rounding errors depend on every score and on the number of candidates; a test shows one sum.",
  ["abiflib/scorestar.py:scaled_scores", "abiflib/scorestar.py:main", "abiflib/html_output_scorestar.py:html_score_and_star"])
p("C98", "Command lines of the other scripts",
  "The remaining scripts read their command lines as documented: options may be given in any order, before, between and after the file names, as two words, as --option=VALUE, as -oVALUE or abbreviated to an unambiguous beginning; the last setting of an option counts; the seven one-file scripts and irvtally.py, copedot.py want exactly one file name and sftxt.py exactly two (lookup file, image file), core.py at least one string and fetchmgr.py any number of specification files, which are done in order. An ambiguous abbreviation, an unknown option, a value outside the choices, and a wrong number of words are refused; -h shows the help; after -- a name may begin with a dash. When a line is refused no file is read or written and nothing but the help is printed; when it is accepted every file name the script gets is a word of the command line. One documented option does not work: fetchmgr.py --abif is described as a switch but swallows the next word, so fetchmgr.py -a SPEC fetches nothing and exits with status 1.",
  "all command lines, all file systems and all option values; for the errors all parsers with well-formed option names",
  "The number of ways to write one command line is unbounded, and a refusal must hold wherever the faulty word stands.",
  ["abiflib/pairwise.py:main", "abiflib/scorestar.py:main", "abiflib/debtally.py:main", "abiflib/preflib.py:main", "abiflib/html_output_pairwise.py:main", "abiflib/html_output_scorestar.py:main", "util/configtool.py:main", "abiflib/irvtally.py:main", "util/copedot.py:main", "abiflib/sftxt.py:main", "abiflib/core.py:main", "fetchmgr.py:main"])
p("C99", "Several fetches at once",
  "Any number of fetchmgr.py runs may work on one disk at the same time, taking turns at every system call and every byte written, on the same or different fetchspecs. In every such schedule, with any answers, refusals and kills, the files that were there at first keep their content; a new file never holds anything but what is sent for it (bytes are right or not there yet, and it is never too long), provided each file has one content; every schedule comes to an end; and when all runs have ended normally every new file is complete. If the directories are there, the network answers and nobody is killed, no run fails and none gets stuck, so they all end normally with every target there. Two things do not hold: without the directories, two runs at once can collide and one ends with FileExistsError (os.makedirs without exist_ok), and a run can end normally while the file it was to provide is still being written by the other.",
  "all numbers of runs, all fetchspecs, all initial disks, all schedules, all server answers and all failures and kills at any step",
  "The number of schedules is unbounded, and a test run sees one of them.",
  ["fetchmgr.py:fetch_url_to_subdir", "fetchmgr.py:fetch_web_items"])
p("C100", "An interrupted conversion is repaired by running it again",
  "fetchmgr.py turns the downloads of a fetchspec into ABIF files: a link for an abif entry, a converted file for debtally, preflib and sftxt entries. If the run is cut off at any system call or after any number of bytes of a file, and run again and cut off again any number of times, then nothing but the files to be made has changed, and each of these is as it was at first, or complete, or a beginning of the complete file, or (a link being replaced) missing. The next run that is not cut off succeeds, every file is then exactly as one undisturbed run makes it, and all else is as before the first run. The directory for the ABIF files may be there at first, or it and directories above it may be missing: then they are made, and nothing else is added. What does not hold: that a half-written file is noticed by those who read it. Cut off within a name it is read without an error, with other candidates.",
  "all fetchspec entries of these formats, all file systems, all points of interruption, any number of interrupted runs",
  "There is an interruption point after every system call and every byte, and they combine over repeated runs; a test does not kill the program at any of them.",
  ["fetchmgr.py:process_extfilelist", "fetchmgr.py:convert_files_to_abif"])
with open(os.path.join(os.path.dirname(__file__), "..", "properties.jsonl"), "w") as f:
    for x in P: f.write(json.dumps(x, ensure_ascii=False) + "\n")
print(len(P))
