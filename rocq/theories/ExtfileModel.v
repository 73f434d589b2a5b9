(** * ExtfileModel: fetchmgr.py:116-196, turning downloads into ABIF files *)

From Verif Require Import PyBase UrlText FetchModel PosixModel Jabmod ParserModel WriterModel NameqModel DebtallyModel ConvertModel.
Local Open Scope Z_scope.

Notation "'do!' x ':=' e 'in' b" := (abind e (fun x => b)) (at level 200, x pattern, e at level 100, b at level 200, right associativity).

(** An entry of web_urls or extfiles; the keys used by fetchmgr.py:143-190. *)
Record extfile := Extfile {
  x_localcopies : option (list str); x_localcopy : option str; x_srcfmt : option str; x_desc : option str; x_abifloc : option str
}.
(** One entry of archive_subfiles as fetchmgr.py:141-153 uses it *)
Record subfile := Subfile { sb_archive_subfile : option str; sb_abifloc : option str }.

Section Ext.
Variable cwd : place.
Variable sha1 : hash.
(** tarfile: the bytes of a member of an archive *)
Variable tar_member : list N -> str -> result (list N).

(** d[key] for a key of the fetchspec that may be missing: KeyError (fetchmgr.py:143-190) *)
Definition akey {A} (o : option A) : act A := lift (of_option KeyError o).

(** fetchmgr.py:122-128 *)
Fixpoint read_all (files : list str) (t : tree) : result (list str) :=
  match files with
  | [] => Ok []
  | f :: r => match read_text cwd t f with
              | Err FileNotFoundError => Err SystemExit
              | Err e => Err e
              | Ok s => match read_all r t with Ok l => Ok (s :: l) | Err e => Err e end
              end
  end.
(** convert_files_to_abif, fetchmgr.py:116-134 *)
Definition convert_files_to_abif (fromfmt : str) (input_files : list str) (output_file : str) (fetchdesc : option str) : act unit :=
  let metadata := match fetchdesc with Some (c :: d) => [(u "description", c :: d)] | _ => [] end in
  do! inputblobs := (fun t => (read_all input_files t, t)) in
  do! abiftext := lift (convert_text_to_abif sha1 fromfmt inputblobs false false metadata) in
  do! _ := mkdir_parent cwd output_file in
  write_text cwd output_file abiftext.

(** convert_nameq_tarball_to_abif_files, fetchmgr.py:137-158; the archive is opened anew for each file *)
Fixpoint convert_subfiles (tarball_fn : str) (subs : list subfile) : act unit :=
  match subs with
  | [] => aret tt
  | s :: r =>
      do! bytes := (fun t => (read_place t (resolve cwd t true tarball_fn), t)) in
      do! member := akey (sb_archive_subfile s) in
      do! content := lift (tar_member bytes member) in
      do! m := lift (convert_nameq_to_jabmod (utf8_decode content)) in
      do! abifstr := lift (convert_jabmod_to_abif (consolidate m)) in
      do! loc := akey (sb_abifloc s) in
      do! _ := mkdir_parent cwd loc in
      do! _ := write_text cwd loc abifstr in
      convert_subfiles tarball_fn r
  end.

(** fetchmgr.py:175-180 *)
Definition link_file (infile abifsubdir outfile : str) : act unit :=
  do! symlinkval := lift (relpath cwd infile abifsubdir) in
  fun t =>
    match os_symlink cwd symlinkval outfile t with
    | (Err FileExistsError, t') => abind (os_remove cwd outfile) (fun _ => os_symlink cwd symlinkval outfile) t'
    | r => r
    end.
(** fetchmgr.py:172-189: srcfmt == '...' *)
Definition is_fmt (f : option str) (name : string) : bool := match f with Some x => str_eqb x (u name) | None => false end.
(** extfile.get('srcfmt') or srcfmt (fetchmgr.py:170) *)
Definition or_else (a b : option str) : option str := match a with Some (c :: r) => Some (c :: r) | _ => b end.
(** The body of the loop, fetchmgr.py:166-195, with the value srcfmt has after line 170. *)
Definition process_entry (dlsubdir abifsubdir : str) (archive_subfiles : option (list subfile)) (x : extfile) (srcfmt : option str) : act unit :=
  do! copies := (match x_localcopies x with Some l => aret l | None => do! c := akey (x_localcopy x) in aret [c] end) in
  let infiles := map (path_join dlsubdir) copies in
  if is_fmt srcfmt "abif" then
    do! loc := akey (x_abifloc x) in
    do! infile := lift (of_option IndexError (nth_error infiles 0)) in
    link_file infile abifsubdir (path_join abifsubdir loc)
  else if is_fmt srcfmt "debtally" || is_fmt srcfmt "preflib" || is_fmt srcfmt "sftxt" then
    do! loc := akey (x_abifloc x) in
    convert_files_to_abif (match srcfmt with Some f => f | None => [] end) infiles (path_join abifsubdir loc) (x_desc x)
  else if is_fmt srcfmt "nameq_archive" then
    do! c := akey (x_localcopy x) in
    do! subs := lift (of_option TypeError archive_subfiles) in
    convert_subfiles (path_join dlsubdir c) subs
  else afail GenericException.
(** The loop of fetchmgr.py:165-195 *)
Fixpoint process_entries (dlsubdir abifsubdir : str) (archive_subfiles : option (list subfile)) (l : list extfile) (srcfmt : option str) : act unit :=
  match l with
  | [] => aret tt
  | x :: r =>
      let srcfmt := or_else (x_srcfmt x) srcfmt in
      do! _ := process_entry dlsubdir abifsubdir archive_subfiles x srcfmt in
      process_entries dlsubdir abifsubdir archive_subfiles r srcfmt
  end.
(** process_extfilelist, fetchmgr.py:161-196.  In the code the entry's srcfmt is looked up after its file names; looking it
    up has no effect and cannot fail, so the order does not matter. *)
Definition process_extfilelist (dlsubdir abifsubdir : str) (l : list extfile) (srcfmt : option str) (archive_subfiles : option (list subfile)) : act unit :=
  fun t => (do! _ := (fun t => if exists_at cwd t abifsubdir then (Ok tt, t) else os_makedirs cwd (S (length abifsubdir)) abifsubdir t) in
            process_entries dlsubdir abifsubdir archive_subfiles l srcfmt) t.
End Ext.
