(** * CrashModel: turning downloads into ABIF files, step by step

    The functions of ExtfileModel once more, keeping a record of the trees on the way: a crash leaves the file system in one of them.  C100_same_run relates
    the two. *)

From Verif Require Import PyBase UrlText FetchModel PosixModel Jabmod ParserModel WriterModel NameqModel DebtallyModel ConvertModel ExtfileModel.
Local Open Scope Z_scope.

(** Not in /repo: a computation on the tree with the trees on the way, in order. *)
Definition tact (A : Type) : Type := tree -> result A * tree * list tree.
(** Not in /repo: returns a value. *)
Definition tret {A} (a : A) : tact A := fun t => (Ok a, t, []).
(** Not in /repo: raises. *)
Definition tfail {A} (e : exn) : tact A := fun t => (Err e, t, []).
(** Not in /repo: one computation after the other. *)
Definition tbind {A B} (x : tact A) (f : A -> tact B) : tact B := fun t =>
  match x t with
  | (Ok a, t', l) => let '(r, t2, l2) := f a t' in (r, t2, l ++ l2)
  | (Err e, t', l) => (Err e, t', l)
  end.
(** Not in /repo: a result without effect. *)
Definition tlift {A} (r : result A) : tact A := fun t => (r, t, []).
(** One system call: mkdir, symlink or unlink (operating system, for fetchmgr.py:132-180). *)
Definition once {A} (x : act A) : tact A := fun t => let '(r, t') := x t in (r, t', [t']).
Notation "'then!' x ':=' e 'in' b" := (tbind e (fun x => b)) (at level 200, x pattern, e at level 100, b at level 200, right associativity).

Section Crash.
Variable cwd : place.
Variable sha1 : hash.
Variable tar_member : list N -> str -> result (list N).

(** os.makedirs (Lib/os.py, called by fetchmgr.py:164) *)
Fixpoint makedirs_steps (n : nat) (name : str) : tact unit :=
  match n with
  | O => tfail RecursionError
  | S k =>
      let '(head, tail) := match basename name with [] => (dirname (dirname name), basename (dirname name)) | tl => (dirname name, tl) end in
      fun t =>
        if nonempty head && nonempty tail && negb (exists_at cwd t head) then
          match makedirs_steps k head t with
          | (Err e, t', l) => match e with
                              | FileExistsError => if str_eqb tail dot then (Ok tt, t', l) else let '(r, t2, l2) := once (os_mkdir cwd name) t' in (r, t2, l ++ l2)
                              | _ => (Err e, t', l)
                              end
          | (Ok _, t', l) => if str_eqb tail dot then (Ok tt, t', l) else let '(r, t2, l2) := once (os_mkdir cwd name) t' in (r, t2, l ++ l2)
          end
        else once (os_mkdir cwd name) t
  end.
(** Path.mkdir(parents=True, exist_ok=True) (Lib/pathlib.py, called by fetchmgr.py:132 and 152) *)
Fixpoint mkdirs_steps (abs : bool) (rl : list str) : tact unit := fun t =>
  match mkdir_place (presolve cwd t false abs (rev rl)) t with
  | (Err FileNotFoundError, t') =>
      match rl with
      | [] => (Err FileNotFoundError, t', [])
      | _ :: parent => tbind (mkdirs_steps abs parent) (fun _ => once (path_mkdir cwd abs (rev rl))) t'
      end
  | (Err e, t') => if is_dir (presolve cwd t' true abs (rev rl)) t' then (Ok tt, t', []) else (Err e, t', [])
  | (Ok a, t') => (Ok a, t', [t'])
  end.
(** Path(f).write_text(s) (fetchmgr.py:133 and 153): the file is emptied, and then the bytes arrive one after the other *)
Definition write_steps (f s : str) : tact unit := fun t =>
  match presolve cwd t true (is_abs f) (pnames f) with
  | Err e => (Err e, t, [])
  | Ok p => match at_place t p with
            | Some NDir | Some (NLink _) => (Err OSError, t, [])
            | _ => match utf8_encode s with
                   | Ok b => (Ok tt, put p (Some (NFile b)) t, map (fun k => put p (Some (NFile (firstn k b))) t) (seq 0 (S (length b))))
                   | Err e => (Err e, put p (Some (NFile [])) t, [put p (Some (NFile [])) t])
                   end
            end
  end.
(** Path(f).parent.mkdir(parents=True, exist_ok=True) (fetchmgr.py:132 and 152) *)
Definition parent_steps (f : str) : tact unit := mkdirs_steps (is_abs f) (match rev (pnames f) with [] => [] | _ :: r => r end).
(** d[key] (fetchmgr.py:143-190) *)
Definition tkey {A} (o : option A) : tact A := tlift (of_option KeyError o).

(** convert_files_to_abif, fetchmgr.py:116-134 *)
Definition convert_steps (fromfmt : str) (input_files : list str) (output_file : str) (fetchdesc : option str) : tact unit :=
  let metadata := match fetchdesc with Some (c :: d) => [(u "description", c :: d)] | _ => [] end in
  then! inputblobs := (fun t => (read_all cwd input_files t, t, [])) in
  then! abiftext := tlift (convert_text_to_abif sha1 fromfmt inputblobs false false metadata) in
  then! _ := parent_steps output_file in
  write_steps output_file abiftext.
(** convert_nameq_tarball_to_abif_files, fetchmgr.py:137-158 *)
Fixpoint subfile_steps (tarball_fn : str) (subs : list subfile) : tact unit :=
  match subs with
  | [] => tret tt
  | s :: r =>
      then! bytes := (fun t => (read_place t (resolve cwd t true tarball_fn), t, [])) in
      then! member := tkey (sb_archive_subfile s) in
      then! content := tlift (tar_member bytes member) in
      then! m := tlift (convert_nameq_to_jabmod (utf8_decode content)) in
      then! abifstr := tlift (convert_jabmod_to_abif (consolidate m)) in
      then! loc := tkey (sb_abifloc s) in
      then! _ := parent_steps loc in
      then! _ := write_steps loc abifstr in
      subfile_steps tarball_fn r
  end.
(** fetchmgr.py:175-180 *)
Definition link_steps (infile abifsubdir outfile : str) : tact unit :=
  then! symlinkval := tlift (relpath cwd infile abifsubdir) in
  fun t =>
    match once (os_symlink cwd symlinkval outfile) t with
    | (Err FileExistsError, t', l) => let '(r, t2, l2) := (then! _ := once (os_remove cwd outfile) in once (os_symlink cwd symlinkval outfile)) t' in (r, t2, l ++ l2)
    | r => r
    end.
(** The body of the loop, fetchmgr.py:166-195 *)
Definition entry_steps (dlsubdir abifsubdir : str) (archive_subfiles : option (list subfile)) (x : extfile) (srcfmt : option str) : tact unit :=
  then! copies := (match x_localcopies x with Some l => tret l | None => then! c := tkey (x_localcopy x) in tret [c] end) in
  let infiles := map (path_join dlsubdir) copies in
  if is_fmt srcfmt "abif" then
    then! loc := tkey (x_abifloc x) in
    then! infile := tlift (of_option IndexError (nth_error infiles 0)) in
    link_steps infile abifsubdir (path_join abifsubdir loc)
  else if is_fmt srcfmt "debtally" || is_fmt srcfmt "preflib" || is_fmt srcfmt "sftxt" then
    then! loc := tkey (x_abifloc x) in
    convert_steps (match srcfmt with Some f => f | None => [] end) infiles (path_join abifsubdir loc) (x_desc x)
  else if is_fmt srcfmt "nameq_archive" then
    then! c := tkey (x_localcopy x) in
    then! subs := tlift (of_option TypeError archive_subfiles) in
    subfile_steps (path_join dlsubdir c) subs
  else tfail GenericException.
(** The loop of fetchmgr.py:165-195 *)
Fixpoint entries_steps (dlsubdir abifsubdir : str) (archive_subfiles : option (list subfile)) (l : list extfile) (srcfmt : option str) : tact unit :=
  match l with
  | [] => tret tt
  | x :: r =>
      let srcfmt := or_else (x_srcfmt x) srcfmt in
      then! _ := entry_steps dlsubdir abifsubdir archive_subfiles x srcfmt in
      entries_steps dlsubdir abifsubdir archive_subfiles r srcfmt
  end.
(** process_extfilelist, fetchmgr.py:161-196 *)
Definition extfilelist_steps (dlsubdir abifsubdir : str) (l : list extfile) (srcfmt : option str) (archive_subfiles : option (list subfile)) : tact unit :=
  fun t => (then! _ := (fun t => if exists_at cwd t abifsubdir then (Ok tt, t, []) else makedirs_steps (S (length abifsubdir)) abifsubdir t) in
            entries_steps dlsubdir abifsubdir archive_subfiles l srcfmt) t.
(** What a crash during a run can leave (fetchmgr.py:161-196). *)
Definition crash_trees (dlsubdir abifsubdir : str) (l : list extfile) (srcfmt : option str) (archive_subfiles : option (list subfile)) (t : tree) : list tree :=
  t :: snd (extfilelist_steps dlsubdir abifsubdir l srcfmt archive_subfiles t).
End Crash.
