(** * SpecfileModel: fetchmgr.py:19-45, 48-113, 199-250 - a whole run of fetchmgr.py on a file tree with directories and links *)

From Verif Require Import PyBase UrlText JsonText JsonParse FetchModel PosixModel Jabmod ParserModel DebtallyModel ConvertModel ExtfileModel.
Local Open Scope Z_scope.

(** What the program does to the world besides changing files, in order: downloads, git commands (with the directory they
    run in) and lines printed to stdout.  Messages to stderr are not modelled. (fetchmgr.py:19-224) *)
Inductive event := EGet (url : str) | EGit (args : list str) (dir : place) | EPrint (line : str).
(** The files, the current directory and what has happened so far. (fetchmgr.py:19-224) *)
Record gworld := Gworld { g_tree : tree; g_cwd : place; g_events : list event }.
(** Not in /repo: a computation on the world that may raise. *)
Definition prog (A : Type) : Type := gworld -> result A * gworld.
(** Not in /repo: returns a value and does nothing. *)
Definition pret {A} (a : A) : prog A := fun w => (Ok a, w).
(** Not in /repo: raises. *)
Definition pfail {A} (e : exn) : prog A := fun w => (Err e, w).
(** Not in /repo: one computation after the other. *)
Definition pbind {A B} (x : prog A) (f : A -> prog B) : prog B := fun w => match x w with (Ok a, w') => f a w' | (Err e, w') => (Err e, w') end.
Notation "'go*' x ':=' e 'in' b" := (pbind e (fun x => b)) (at level 200, x pattern, e at level 100, b at level 200, right associativity).
(** Not in /repo: a result as a computation that does nothing. *)
Definition pres {A} (r : result A) : prog A := fun w => (r, w).

Section Run.
(** The answers of the web servers and of git, by the number of events so far: a reply to a request (None: requests raises),
    the exit status of git and the tree it leaves (None: there is no git program). *)
Variable server : nat -> str -> option (Z * list N).
Variable git : nat -> list str -> place -> tree -> option (Z * tree).
Variable sha1 : hash.
Variable tar_member : list N -> str -> result (list N).

(** Not in /repo: an action of PosixModel in the current directory. *)
Definition on_tree {A} (a : place -> act A) : prog A := fun w =>
  let (r, t) := a (g_cwd w) (g_tree w) in (r, Gworld t (g_cwd w) (g_events w)).
(** Not in /repo: something happens that changes no file. *)
Definition happens (e : event) : prog unit := fun w => (Ok tt, Gworld (g_tree w) (g_cwd w) (g_events w ++ [e])).
(** print(line) (fetchmgr.py:28-45, 71, 127, 201) *)
Definition pprint (line : str) : prog unit := happens (EPrint line).
(** os.path.exists (fetchmgr.py:36, 64, 67, 79, 96, 105, 163, 200) *)
Definition pexists (p : str) : prog bool := fun w => (Ok (exists_at (g_cwd w) (g_tree w) p), w).
(** os.makedirs(p) (fetchmgr.py:65, 80, 164) *)
Definition pmakedirs (p : str) : prog unit := on_tree (fun cwd => os_makedirs cwd (S (length p)) p).
(** os.getcwd(): the place; it raises if the directory has been removed (fetchmgr.py:24) *)
Definition pgetcwd : prog place := fun w =>
  match at_place (g_tree w) (g_cwd w) with Some NDir => (Ok (g_cwd w), w) | _ => (Err FileNotFoundError, w) end.
(** os.chdir to the place a path leads to (fetchmgr.py:25 and 32) *)
Definition pchdir_to (find : place -> tree -> result place) : prog unit := fun w =>
  match find (g_cwd w) (g_tree w) with
  | Err e => (Err e, w)
  | Ok p => match at_place (g_tree w) p with
            | Some NDir => (Ok tt, Gworld (g_tree w) p (g_events w))
            | None => (Err FileNotFoundError, w)
            | Some _ => (Err OSError, w)
            end
  end.
(** os.chdir(p), fetchmgr.py:25 *)
Definition pchdir (p : str) : prog unit := pchdir_to (fun cwd t => resolve cwd t true p).
(** os.chdir(d) with d from os.getcwd(), an absolute path (fetchmgr.py:32) *)
Definition pchdir_back (d : place) : prog unit := pchdir_to (fun _ t => walk max_links t true [] d).
(** subprocess.run(args), without check: only a missing program raises (fetchmgr.py:27 and 41) *)
Definition run_git (args : list str) : prog Z := fun w =>
  match git (length (g_events w)) args (g_cwd w) (g_tree w) with
  | None => (Err FileNotFoundError, w)
  | Some (status, t) => (Ok status, Gworld t (g_cwd w) (g_events w ++ [EGit args (g_cwd w)]))
  end.

(** update_repository, fetchmgr.py:19-32.  CalledProcessError is never raised, as run is called without check. *)
Definition update_repository (gitrepo_url subdir : str) : prog unit :=
  go* there := pexists subdir in
  if negb there then pprint (u "Directory '" ++ subdir ++ u "' isn't there.")
  else
    go* startdir := pgetcwd in
    go* _ := pchdir subdir in
    go* _ := run_git [u "git"; u "pull"] in
    go* _ := pprint (u "Updating repository " ++ subdir ++ u " from " ++ gitrepo_url ++ u " (git pull)") in
    pchdir_back startdir.

(** checkout_repository, fetchmgr.py:35-45 *)
Definition checkout_repository (gitrepo_url subdir : str) : prog unit :=
  go* there := pexists subdir in
  if there then
    go* _ := pprint (u "Directory '" ++ subdir ++ u "' exists.") in
    update_repository gitrepo_url subdir
  else
    go* _ := run_git [u "git"; u "clone"; gitrepo_url; subdir] in
    pprint (u "Repository cloned from " ++ gitrepo_url ++ u " to " ++ subdir).

(** requests.get (fetchmgr.py:59) *)
Definition pget (url : str) : prog (Z * list N) := fun w =>
  let w' := Gworld (g_tree w) (g_cwd w) (g_events w ++ [EGet url]) in
  match server (length (g_events w)) url with Some r => (Ok r, w') | None => (Err RequestException, w') end.
(** with open(p, "wb") as f: f.write(content) (fetchmgr.py:68-69) *)
Definition write_bytes (p : str) (content : list N) (cwd : place) : act unit := fun t =>
  match resolve cwd t true p with
  | Err e => (Err e, t)
  | Ok q => match at_place t q with
            | Some NDir | Some (NLink _) => (Err OSError, t)   (* no link: it has been followed *)
            | _ => (Ok tt, put q (Some (NFile content)) t)
            end
  end.

(** fetch_url_to_subdir, fetchmgr.py:48-74 (the same code as FetchModel.fetch_url_to_subdir, here on a tree) *)
Definition pfetch_url (url subdir localpath : str) : prog (Z * list N) :=
  if negb (nonempty url) || negb (nonempty subdir) || negb (nonempty localpath) then pfail GenericException
  else
    go* response := pget url in
    if fst response =? 200 then
      let d := dirname localpath in
      go* there := pexists d in
      go* _ := (if there then pret tt else pmakedirs d) in
      go* there := pexists d in
      if there then go* _ := on_tree (write_bytes localpath (snd response)) in pret response
      else
        go* _ := pprint (u "d " ++ d ++ u " f " ++ basename localpath) in
        pfail GenericException
    else pret response.

(** d[key] with a key that may be absent: KeyError (fetchmgr.py:78-110) *)
Definition pkey {A} (o : option A) : prog A := pres (of_option KeyError o).
(** l[i] with IndexError (fetchmgr.py:88-110) *)
Definition pindex {A} (i : nat) (l : list A) : prog A := pres (of_option IndexError (nth_error l i)).
(** fetchmgr.py:96-103 and 105-112 *)
Definition pfetch_if_missing (subdir localpath : str) (get_url : prog str) (ud : urldict) (response : reply) : prog reply :=
  go* there := pexists localpath in
  if there then pret response
  else
    go* url := get_url in
    go* metas := pkey (ud_metaurls ud) in
    go* _ := pindex 0 metas in
    go* _ := pkey (ud_desc ud) in
    go* r := pfetch_url url subdir localpath in
    pret (Some r).
(** fetchmgr.py:94-103: the loop over the urls *)
Fixpoint pfetch_urls (subdir : str) (ud : urldict) (localpaths : list str) (i : nat) (urls : list str) (response : reply) : prog reply :=
  match urls with
  | [] => pret response
  | suburl :: r =>
      go* lp := pindex i localpaths in
      go* response := pfetch_if_missing subdir lp (pret suburl) ud response in
      pfetch_urls subdir ud localpaths (S i) r response
  end.
(** fetchmgr.py:84-112 *)
Fixpoint pfetch_entries (subdir : str) (uds : list urldict) (localpaths : list str) (localpath : option str) (response : reply) : prog reply :=
  match uds with
  | [] => pret response
  | ud :: r =>
      go* paths := match ud_localcopies ud with
                   | Some copies => pret (fill_paths subdir 0 copies localpaths, localpath)
                   | None => go* c := pkey (ud_localcopy ud) in pret (localpaths, Some (path_join subdir c))
                   end in
      go* response := match ud_urls ud with
                      | Some urls => pfetch_urls subdir ud (fst paths) 0 urls response
                      | None => match snd paths with
                                | Some lp => pfetch_if_missing subdir lp (pkey (ud_url ud)) ud response
                                | None => pfail NameError
                                end
                      end in
      pfetch_entries subdir r (fst paths) (snd paths) response
  end.

(** ** The fetchspec, a JSON object *)
(** What the code takes out of the object, with the types it expects.  Simplification: a member with another type is a
    TypeError, raised before the member would be used; null counts as absent, except for desc, of which the download only
    asks that it be there. (fetchmgr.py:77-224) *)
Definition member (k : string) (o : dict json) : option json := match dget (u k) o with Some JNull => None | r => r end.
(** d.get(k) where a string is expected (fetchmgr.py:77-224) *)
Definition get_str (k : string) (o : dict json) : result (option str) :=
  match member k o with None => Ok None | Some (JStr s) => Ok (Some s) | Some _ => Err TypeError end.
(** A list in which strings are expected (fetchmgr.py:77-224) *)
Fixpoint all_strs (l : list json) : result (list str) :=
  match l with
  | [] => Ok []
  | JStr s :: r => match all_strs r with Ok q => Ok (s :: q) | Err e => Err e end
  | _ => Err TypeError
  end.
(** d.get(k) where a list of strings is expected (fetchmgr.py:77-224) *)
Definition get_strs (k : string) (o : dict json) : result (option (list str)) :=
  match member k o with
  | None => Ok None
  | Some (JArr l) => match all_strs l with Ok q => Ok (Some q) | Err e => Err e end
  | Some _ => Err TypeError
  end.
(** d.get(k) where a list is expected (fetchmgr.py:77-224) *)
Definition get_list (k : string) (o : dict json) : result (option (list json)) :=
  match member k o with None => Ok None | Some (JArr l) => Ok (Some l) | Some _ => Err TypeError end.

Local Open Scope res_scope.
(** An entry of web_urls, fetchmgr.py:84-112 *)
Definition urldict_of (j : json) : result urldict :=
  match j with
  | JObj o =>
      let* a := get_strs "localcopies" o in
      let* b := get_str "localcopy" o in
      let* c := get_strs "urls" o in
      let* d := get_str "url" o in
      let* e := get_strs "metaurls" o in
      let desc := match dget (u "desc") o with Some (JStr s) => Some s | Some _ => Some [] | None => None end in
      Ok (Urldict a b c d e desc)
  | _ => Err TypeError
  end.
(** An entry of extfiles or web_urls, fetchmgr.py:165-190 *)
Definition extfile_of (j : json) : result extfile :=
  match j with
  | JObj o =>
      let* a := get_strs "localcopies" o in
      let* b := get_str "localcopy" o in
      let* c := get_str "srcfmt" o in
      let* d := get_str "desc" o in
      let* e := get_str "abifloc" o in
      Ok (Extfile a b c d e)
  | _ => Err TypeError
  end.
(** An entry of archive_subfiles, fetchmgr.py:141-153 *)
Definition subfile_of (j : json) : result subfile :=
  match j with
  | JObj o =>
      let* a := get_str "archive_subfile" o in
      let* b := get_str "abifloc" o in
      Ok (Subfile a b)
  | _ => Err TypeError
  end.
Local Close Scope res_scope.

(** fetch_web_items, fetchmgr.py:77-113 *)
Definition pfetch_web_items (spec : dict json) : prog reply :=
  go* subdir := pres (get_str "download_subdir" spec) in
  go* subdir := pkey subdir in
  go* there := pexists subdir in
  go* _ := (if there then pret tt else pmakedirs subdir) in
  go* entries := pres (get_list "web_urls" spec) in
  go* entries := pkey entries in
  go* uds := pres (mapM urldict_of entries) in
  pfetch_entries subdir uds [] None None.

(** x or y for two optional lists: an empty list is false (fetchmgr.py:216) *)
Definition or_list (a b : option (list json)) : option (list json) := match a with Some (x :: r) => Some (x :: r) | _ => b end.

(** process_fetchspec, fetchmgr.py:199-223 *)
Definition process_fetchspec (fn : str) : prog unit :=
  go* there := pexists fn in
  if negb there then
    go* _ := pprint (u "fetchspec '" ++ fn ++ u "' not found.") in
    pfail RuntimeError
  else
    go* text := (fun w => (read_text (g_cwd w) (g_tree w) fn, w)) in
    go* j := pres (json_loads text) in
    match j with
    | JObj spec =>
        go* _ := (if dmem (u "gitrepo_url") spec then
                    go* url := pres (get_str "gitrepo_url" spec) in
                    go* url := pres (of_option TypeError url) in
                    go* subdir := pres (get_str "download_subdir" spec) in
                    go* subdir := pkey subdir in
                    checkout_repository url subdir
                  else if dmem (u "web_urls") spec then go* _ := pfetch_web_items spec in pret tt
                  else pfail GenericException) in
        go* dlsubdir := pres (get_str "download_subdir" spec) in
        go* dlsubdir := pkey dlsubdir in
        go* abifsubdir := pres (get_str "abifloc_subdir" spec) in
        go* web := pres (get_list "web_urls" spec) in
        go* ext := pres (get_list "extfiles" spec) in
        go* srcfmt := pres (get_str "srcfmt" spec) in
        match abifsubdir, or_list web ext with
        | Some (c :: r), Some (x :: l) =>
            go* subs := pres (get_list "archive_subfiles" spec) in
            go* subs := pres (match subs with None => Ok None | Some q => match mapM subfile_of q with Ok y => Ok (Some y) | Err e => Err e end end) in
            go* entries := pres (mapM extfile_of (x :: l)) in
            on_tree (fun cwd => process_extfilelist cwd sha1 tar_member dlsubdir (c :: r) entries srcfmt subs)
        | _, _ => pret tt
        end
    | _ => pfail AttributeError
    end.

(** main, fetchmgr.py:226-249, after argument parsing; the value of --abif is never used *)
Fixpoint process_all (fns : list str) : prog unit :=
  match fns with [] => pret tt | fn :: r => go* _ := process_fetchspec fn in process_all r end.
(** main, fetchmgr.py:227-247 *)
Definition fetchmgr_main (abif : option str) (fns : list str) : prog unit :=
  match fns with
  | [] => go* _ := pprint (u "Please provide at least one fetchspec (see fetchspecs/*)") in pfail SystemExit
  | _ => process_all fns
  end.
End Run.
