(** * ScriptArgvModel: the scripts from the command line to the exit status *)

From Verif Require Import PyBase Jabmod IrvModel ScoreModel ResultsJson HtmlModel CliModel ArgvModel ArgparseModel ScriptsModel SftxtMainModel UrlText DebtallyModel PosixModel ExtfileModel SpecfileModel.
Local Open Scope Z_scope.

(** parser.error, the exit of -h and an exception inside argparse: nothing is read; [help] is the text of --help. (argparse, called at irvtally.py:290 and
    the like) *)
Definition stop_process (help : str) (e : stopped) : process := match e with SUsage => Process [] [] 2 | SHelp => Process [] help 0 | SCrash => Process [] [] 1 end.
(** The end of main() (irvtally.py:303-304 and the like) *)
Definition ran (o : outcome) : process := Process (o_reads o) (o_stdout o) (exit_status (o_ending o)).
(** A script with one file: debtally.py:107-124, preflib.py:84-101, html_output_pairwise.py:219-235, html_output_scorestar.py:54-71, pairwise.py:143-172,
    scorestar.py:164-219, configtool.py:95-109 *)
Definition file_script (main : str -> outcome) (help : str) (argv : list str) : process :=
  match parse_command one_file argv with
  | inl (_, [[f]]) => ran (main f)
  | inl _ => stop_process help SUsage
  | Datatypes.inr e => stop_process help e
  end.
(** irvtally.py:283-304 *)
Definition irvtally_script (s : surroundings) (rn : rendering) (help : str) (argv : list str) : process :=
  match parse_command irvtally_spec argv with
  | inl (os, [[f]]) => ran (irvtally_main s rn (is_set "json" os) f)
  | inl _ => stop_process help SUsage
  | Datatypes.inr e => stop_process help e
  end.
(** copedot.py:27-59 *)
Definition copedot_script (s : surroundings) (rn : rendering) (help : str) (argv : list str) : process :=
  match parse_command copedot_spec argv with
  | inl (os, [[f]]) => ran (copedot_main s rn (value_or "outfmt" (u "svg") os) f)
  | inl _ => stop_process help SUsage
  | Datatypes.inr e => stop_process help e
  end.
(** core.py:682-721 *)
Definition core_script (list_str : list str -> str) (help : str) (argv : list str) : process :=
  match parse_command core_spec argv with
  | inl (os, [strings]) => ran (core_main list_str (value_or "func" (u "pref_to_dict") os) strings)
  | inl _ => stop_process help SUsage
  | Datatypes.inr e => stop_process help e
  end.
(** args of sftxt.py:357 *)
Definition sftxt_args (os : dict value) (lookupfile imagefile : str) : sf_args :=
  SfArgs (is_set "imagelines" os) lookupfile imagefile (value_of "outfile" os) (value_of "contestid" os) (value_or "outputformat" (u "json") os) (is_set "consolidate" os).
(** sftxt.py:337-416: the files afterwards, what is printed, and the status *)
Definition sftxt_script (fs : files) (help : str) (argv : list str) : files * str * Z :=
  match parse_command sftxt_spec argv with
  | inl (os, [[l]; [i]]) => let o := sftxt_main fs (sftxt_args os l i) in (so_files o, so_stdout o, match so_exn o with None => 0 | Some _ => 1 end)
  | inl _ => (fs, [], 2)
  | Datatypes.inr e => (fs, p_stdout (stop_process help e), p_status (stop_process help e))
  end.
(** fetchmgr.py:226-252: the world afterwards, and the status; the text of --help is an event *)
Definition fetchmgr_script (server : nat -> str -> option (Z * list N)) (git : nat -> list str -> place -> tree -> option (Z * tree)) (sha1 : hash) (tar : list N -> str -> result (list N))
    (help : str) (argv : list str) (w : gworld) : gworld * Z :=
  match parse_command fetchmgr_spec argv with
  | inl (os, [fns]) => let r := fetchmgr_main server git sha1 tar (value_of "abif" os) fns w in (snd r, match fst r with Ok _ => 0 | Err _ => 1 end)
  | inl _ => (w, 2)
  | Datatypes.inr SHelp => (Gworld (g_tree w) (g_cwd w) (g_events w ++ [EPrint help]), 0)
  | Datatypes.inr e => (w, p_status (stop_process help e))
  end.
