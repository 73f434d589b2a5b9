(** * LogModel: abiflib/devtools.py:35-125, the log file *)

From Verif Require Import PyBase FetchModel PosixModel.
Local Open Scope Z_scope.

(** The class attributes and the files.  What has been written and flushed is in the file; every method flushes
    before it returns. (devtools.py:35-40) *)
Record logstate := Logstate {
  lg_instance : bool;             (* _instance is not None *)
  lg_filename : option str;       (* _filename *)
  lg_filehandle : option str;     (* _filehandle: the name of the open file *)
  lg_msgs : list str;             (* devtoolmsgs *)
  lg_files : dict str;            (* contents *)
  lg_opens : list str             (* the files opened so far; not in the code, for stating properties *)
}.
(** The surroundings of one call: os.getenv('ABIFLIB_LOG'), os.path.exists, and whether open(..., "a") is allowed. (devtools.py:46-58) *)
Record logenv := Logenv { le_var : option str; le_exists : str -> bool; le_open : bool }.
(** A frame of the call stack. (devtools.py:76-79) *)
Record frame := Frame { fr_function : str; fr_filename : str; fr_lineno : Z }.

(** The class before its first use, devtools.py:35-40 *)
Definition new_instance (files : dict str) : logstate := Logstate false None None [] files [].
(** filename if it is not empty (devtools.py:46) *)
Definition truthy (o : option str) : option str := match o with Some [] => None | x => x end.
(** __new__, devtools.py:42-70 *)
Definition log_new (force_log : bool) (e : logenv) (s : logstate) : result unit * logstate :=
  if lg_instance s then (Ok tt, s)
  else
    match truthy (le_var e) with
    | Some filename =>
        let s1 := Logstate true (Some filename) (lg_filehandle s) (lg_msgs s) (lg_files s) (lg_opens s) in
        let complain err := Logstate true (Some filename) (lg_filehandle s) (lg_msgs s ++ [err]) (lg_files s) (lg_opens s) in
        if is_abs filename then
          let logdir := dirname filename in
          if le_exists e logdir then
            if le_open e then
              let old := match dget filename (lg_files s) with Some c => c | None => [] end in
              (Ok tt, Logstate true (Some filename) (Some filename)
                 (lg_msgs s ++ [u "ABIFLIB_LOG set to " ++ filename ++ u ".  Amending additional debugging output there."])
                 (dset filename old (lg_files s)) (lg_opens s ++ [filename]))
            else (Err OSError, s1)
          else (Err FileNotFoundError, complain (u "Dir in ABIFLIB_LOG path doesn't exist: " ++ logdir))
        else (Err ValueError, complain (u "ABIFLIB_LOG needs to be an absolute path: " ++ filename))
    | None =>
        if force_log then (Err ValueError, Logstate true (lg_filename s) (lg_filehandle s) (lg_msgs s) (lg_files s) (lg_opens s))
        else (Ok tt, Logstate true (lg_filename s) (lg_filehandle s) (lg_msgs s ++ [u "ABIFLIB_LOG not set, so no extra logging will be done."]) (lg_files s) (lg_opens s))
    end.
(** fh.write and flush, devtools.py:85-90 and 99-104 *)
Definition append_to (f text : str) (s : logstate) : logstate :=
  Logstate (lg_instance s) (lg_filename s) (lg_filehandle s) (lg_msgs s)
    (dset f (match dget f (lg_files s) with Some c => c | None => [] end ++ text) (lg_files s)) (lg_opens s).
(** devtools.py:80-83; Some 0 is falsy like None, and the slice with a negative bound is not modelled *)
Definition shortened (s : str) (maxlen : option nat) : str :=
  match maxlen with
  | Some (S k) => if (S k <? length s)%nat then firstn (S k) s ++ u ".." else s
  | _ => s
  end.
(** os.path.basename of the frame's file name (devtools.py:77-90) *)
Definition log_text (msg : str) (newline showframeinfo : bool) (maxfunc maxfile : option nat) (fr : frame) : str :=
  (if showframeinfo then shortened (fr_function fr) maxfunc ++ u " (" ++ shortened (basename (fr_filename fr)) maxfile ++ u ":" ++ z2s (fr_lineno fr) ++ u "): " else [])
  ++ msg ++ (if newline then [10%N] else []).
(** log, devtools.py:72-90.  [callers]: the frames below log's own, innermost first; the one used is the caller's caller, and
    getframeinfo(None) is a TypeError. *)
Definition log_log (msg : str) (newline showframeinfo : bool) (maxfunc maxfile : option nat) (callers : list frame) (s : logstate) : result unit * logstate :=
  match nth_error callers 1 with
  | None => (Err TypeError, s)
  | Some fr =>
      match lg_filehandle s with
      | Some f => (Ok tt, append_to f (log_text msg newline showframeinfo maxfunc maxfile fr) s)
      | None => (Ok tt, s)
      end
  end.
(** logblob, devtools.py:92-104; [blob] is what pformat makes of the object *)
Definition blob_text (blob : str) (blobmark : option str) : str :=
  match truthy blobmark with
  | Some m => u "--" ++ m ++ u "START--" ++ [10%N] ++ blob ++ [10%N] ++ u "--" ++ m ++ u "END--" ++ [10%N]
  | None => blob ++ [10%N]
  end.
(** logblob, devtools.py:92-104 *)
Definition log_blob (blob : str) (blobmark : option str) (s : logstate) : result unit * logstate :=
  match lg_filehandle s with
  | Some f => (Ok tt, append_to f (blob_text blob blobmark) s)
  | None => (Ok tt, s)
  end.
(** close_file, devtools.py:106-111 *)
Definition log_close (s : logstate) : result unit * logstate :=
  (Ok tt, match lg_filehandle s with Some _ => Logstate (lg_instance s) (lg_filename s) None (lg_msgs s) (lg_files s) (lg_opens s) | None => s end).

(** The calls a program can make: the class, its methods, and abiflib_test_log / abiflib_test_logblob (devtools.py:115-125),
    which first ask for the instance. *)
Inductive logcall :=
| CNew (force_log : bool)
| CLog (msg : str) (newline showframeinfo : bool) (maxfunc maxfile : option nat) (callers : list frame)
| CBlob (blob : str) (blobmark : option str)
| CClose
| CTestLog (msg : str) (newline showframeinfo : bool) (maxfunc maxfile : option nat) (callers : list frame)
| CTestBlob (blob : str) (blobmark : option str).
(** The frame of abiflib_test_log, devtools.py:115-119 *)
Definition test_frame : frame := Frame (u "abiflib_test_log") (u "devtools.py") 119.
(** One call of a method of LogfileSingleton or of a test function, devtools.py:42-125 *)
Definition perform_call (c : logcall) (e : logenv) (s : logstate) : result unit * logstate :=
  match c with
  | CNew f => log_new f e s
  | CLog m n sh mf ml fs => log_log m n sh mf ml fs s
  | CBlob b k => log_blob b k s
  | CClose => log_close s
  | CTestLog m n sh mf ml fs => match log_new false e s with (Ok _, s') => log_log m n sh mf ml (test_frame :: fs) s' | r => r end
  | CTestBlob b k => match log_new false e s with (Ok _, s') => log_blob b k s' | r => r end
  end.
(** A history: calls with their surroundings; exceptions are caught by the caller and the program goes on. (devtools.py:35-125) *)
Fixpoint perform_all (h : list (logcall * logenv)) (s : logstate) : list (result unit) * logstate :=
  match h with
  | [] => ([], s)
  | (c, e) :: r => let (x, s1) := perform_call c e s in let (xs, s2) := perform_all r s1 in (x :: xs, s2)
  end.
