# Formal model of electorama/abiftool in Rocq (Coq 8.16.1)

## 1. Approach

The code is Python; the model is a shallow, executable Gallina transcription, function by
function, exceptions as values (`result A = Ok a | Err exn`), loops as structural recursion or
folds, recursion on explicit fuel where Python recurses on shrinking data (and a theorem shows the
fuel is never exhausted). Every definition cites file and lines of `/repo`; simplifications are
stated in that comment and collected in section 5.

* Python `str` = `list N` of code points. `\s`, `str.strip`, `str.splitlines`, `\d`, `\w`, `int()` use the
  real Unicode sets (tables in `PyBase.v` and the generated `WordTable.v`, Unicode 14).
* Python `dict` = insertion-ordered association list with `dget/dset/ddel`.
* `re` = a small backtracking regex engine (`Regex.v`, greedy and ordered like Python's), proved
  sound and complete against an inductive matching relation (`RegexFacts.v`); the patterns of
  `abifregex.py` and of the converters are transcribed as regex ASTs.
* `sorted` = stable insertion sort (proved: permutation, ordered, stable).
* Randomness (`random.choice`), set-iteration order (IRV) and hashes (SHA-1) = oracle arguments;
  theorems quantify over all oracles.
* The outside world of `fetchmgr.py` = a tree of directories, files and symbolic links with POSIX
  path resolution (`PosixModel.v`), plus oracles for what servers answer and what git does; for C58
  also a schedule of operating-system refusals and crash points.
* The library behaviour the code leans on is itself modelled and not assumed: UTF-8, `urllib.parse`,
  `json.dumps`/`json.loads`, `csv.DictWriter`, `os.path`, `os.makedirs`, `Path.write_text`.

Kinds of files (all in `rocq/theories`): `*Model.v` (and `Jabmod.v`, `Regex.v`, `UrlText.v`, `JsonText.v`,
`JsonParse.v`) hold the transcriptions and no proofs; `Spec.v`, `ParserSpec.v`, `ImportSpec.v`,
`SftxtSpec.v` and the "Specification" section at the head of a `Props*.v` hold the small independent
vocabulary of the statements; `*Facts.v` and the like hold lemmas; `Props*.v` hold the property theorems
`Cnn_...` with non-vacuity `Example`s beside them and `Print Assumptions` after them.

Naming: a theorem `Cnn_..._refuted` proves, by a concrete witness accepted by the kernel, that a claim a user
would expect does NOT hold of the code; the theorems of the same property without the suffix prove what does hold,
for all inputs. `_partial` marks a theorem that covers part of the claim.

