(** * PosixModel: files, directories, symbolic links and the parts of os, os.path and pathlib that fetchmgr.py uses.

    Models POSIX path resolution and the Python 3.11 library (Lib/os.py, Lib/posixpath.py, Lib/pathlib.py), not code of
    /repo.  Simplifications: the operating system refuses nothing that the tree itself allows (permissions, full
    disks and name lengths are not modelled), nothing else runs at the same time, and after 40 links a path is a loop. *)

From Verif Require Import PyBase UrlText FetchModel.
Local Open Scope N_scope.

(** A place: the names from the root down. *)
Definition place := list str.
(** What can be at a place: a directory, a file or a symbolic link (the file system that fetchmgr.py works on). *)
Inductive node := NDir | NFile (bytes : list N) | NLink (target : str).
(** The tree, and nothing at a place: None.  The root is a directory whatever the function says. *)
Definition tree := place -> option node.
(** Not in /repo: equality of places. *)
Fixpoint place_eqb (p q : place) : bool :=
  match p, q with [], [] => true | x :: p', y :: q' => str_eqb x y && place_eqb p' q' | _, _ => false end.
(** What is at a place of the tree. *)
Definition at_place (t : tree) (p : place) : option node := match p with [] => Some NDir | _ => t p end.
(** The tree after a change at one place. *)
Definition put (p : place) (n : option node) (t : tree) : tree := fun q => if place_eqb q p then n else t q.

(** The name of the directory itself *)
Definition dot : str := [46].
(** The name of the directory above *)
Definition dotdot : str := [46; 46].
(** A name that is not empty and not one of these two *)
Definition plain_name (c : str) : bool := negb (str_eqb c []) && negb (str_eqb c dot) && negb (str_eqb c dotdot) && negb (existsb (N.eqb slash) c).
(** p.split('/') *)
Definition names (p : str) : list str := split_on slash p.
(** os.path.isabs, Path.is_absolute *)
Definition is_abs (p : str) : bool := match p with c :: _ => c =? slash | [] => false end.

(** ** Path resolution *)
(** Walk from [cur] along the names; the last name need not exist; a link in last position is followed if
    [follow].  [links] bounds the links followed. *)
Fixpoint walk (links : nat) (t : tree) (follow : bool) : place -> list str -> result place :=
  fix go (cur : place) (l : list str) : result place :=
    match l with
    | [] => Ok cur
    | c :: r =>
        if str_eqb c [] || str_eqb c dot then go cur r
        else if str_eqb c dotdot then go (removelast cur) r
        else
          let p := cur ++ [c] in
          match at_place t p with
          | None => match r with [] => Ok p | _ => Err FileNotFoundError end
          | Some NDir => go p r
          | Some (NFile _) => match r with [] => Ok p | _ => Err OSError end
          | Some (NLink target) =>
              if match r with [] => negb follow | _ => false end then Ok p
              else match links with
                   | O => Err OSError
                   | S k => walk k t follow (if is_abs target then [] else cur) (names target ++ r)
                   end
          end
    end.
(** The limit of the Linux kernel on the links in one path (ELOOP) *)
Definition max_links : nat := 40.

Section Posix.
(** the current directory *)
Variable cwd : place.
(** Where the walk along a path begins *)
Definition start_of (p : str) : place := if is_abs p then [] else cwd.
(** The place a path leads to (the last link followed or not).  The empty path leads nowhere. *)
Definition resolve (t : tree) (follow : bool) (p : str) : result place :=
  match p with [] => Err FileNotFoundError | _ => walk max_links t follow (start_of p) (names p) end.
(** pathlib.Path(p) drops empty names and '.' *)
Definition pnames (p : str) : list str := filter (fun c => negb (str_eqb c [] || str_eqb c dot)) (names p).
(** Where a pathlib.Path leads to (fetchmgr.py:125, 132-133, 151-153) *)
Definition presolve (t : tree) (follow : bool) (abs : bool) (l : list str) : result place :=
  walk max_links t follow (if abs then [] else cwd) l.
(** What is at the place a path leads to *)
Definition looks_up (r : result place) (t : tree) : option node := match r with Ok p => at_place t p | Err _ => None end.
(** os.path.exists, os.path.isdir / Path.is_dir *)
Definition exists_at (t : tree) (p : str) : bool := match looks_up (resolve t true p) t with Some _ => true | None => false end.
(** os.path.isdir / Path.is_dir *)
Definition is_dir (r : result place) (t : tree) : bool := match looks_up r t with Some NDir => true | _ => false end.

(** ** Changing the tree *)
Definition act (A : Type) : Type := tree -> result A * tree.
(** Not in /repo: returns a value and changes nothing. *)
Definition aret {A} (a : A) : act A := fun t => (Ok a, t).
(** Not in /repo: raises. *)
Definition afail {A} (e : exn) : act A := fun t => (Err e, t).
(** Not in /repo: one computation after the other. *)
Definition abind {A B} (x : act A) (f : A -> act B) : act B := fun t => match x t with (Ok a, t') => f a t' | (Err e, t') => (Err e, t') end.
(** Not in /repo: a result as a computation that changes nothing. *)
Definition lift {A} (r : result A) : act A := fun t => (r, t).
Local Notation "'do*' x ':=' e 'in' b" := (abind e (fun x => b)) (at level 200, x pattern, e at level 100, b at level 200, right associativity).

(** os.mkdir at a resolved place *)
Definition mkdir_place (r : result place) : act unit := fun t =>
  match r with
  | Err e => (Err e, t)
  | Ok p => match at_place t p with Some _ => (Err FileExistsError, t) | None => (Ok tt, put p (Some NDir) t) end
  end.
(** os.mkdir(p); a trailing slash is allowed *)
Definition os_mkdir (p : str) : act unit := fun t => mkdir_place (match p with [] => Err FileNotFoundError | _ => presolve t false (is_abs p) (pnames p) end) t.
(** os.path.split(p)[1] *)
Definition basename (p : str) : str := skipn (length (upto_last_slash p)) p.
(** os.makedirs(name), exist_ok False; [n] bounds the recursion (the names get shorter) *)
Fixpoint os_makedirs (n : nat) (name : str) : act unit :=
  match n with
  | O => afail RecursionError
  | S k =>
      let '(head, tail) := match basename name with [] => (dirname (dirname name), basename (dirname name)) | tl => (dirname name, tl) end in
      fun t =>
        if nonempty head && nonempty tail && negb (exists_at t head) then
          match os_makedirs k head t with
          | (Err e, t') => match e with
                           | FileExistsError => if str_eqb tail dot then (Ok tt, t') else os_mkdir name t'
                           | _ => (Err e, t')
                           end
          | (Ok _, t') => if str_eqb tail dot then (Ok tt, t') else os_mkdir name t'
          end
        else os_mkdir name t
  end.
(** Path.mkdir(exist_ok=True), parents=False *)
Definition path_mkdir (abs : bool) (l : list str) : act unit := fun t =>
  match mkdir_place (presolve t false abs l) t with
  | (Err FileNotFoundError, t') => (Err FileNotFoundError, t')
  | (Err e, t') => if is_dir (presolve t' true abs l) t' then (Ok tt, t') else (Err e, t')
  | r => r
  end.
(** Path.mkdir(parents=True, exist_ok=True); the names are given last first *)
Fixpoint path_mkdirs (abs : bool) (rl : list str) : act unit := fun t =>
  match mkdir_place (presolve t false abs (rev rl)) t with
  | (Err FileNotFoundError, t') =>
      match rl with
      | [] => (Err FileNotFoundError, t')
      | _ :: parent => abind (path_mkdirs abs parent) (fun _ => path_mkdir abs (rev rl)) t'
      end
  | (Err e, t') => if is_dir (presolve t' true abs (rev rl)) t' then (Ok tt, t') else (Err e, t')
  | r => r
  end.
(** os.symlink(src, dst) *)
Definition os_symlink (src dst : str) : act unit := fun t =>
  match src with
  | [] => (Err FileNotFoundError, t)
  | _ => match resolve t false dst with
         | Err e => (Err e, t)
         | Ok p => match at_place t p with Some _ => (Err FileExistsError, t) | None => (Ok tt, put p (Some (NLink src)) t) end
         end
  end.
(** os.remove(p): not for directories *)
Definition os_remove (p : str) : act unit := fun t =>
  match resolve t false p with
  | Err e => (Err e, t)
  | Ok q => match at_place t q with None => (Err FileNotFoundError, t) | Some NDir => (Err OSError, t) | _ => (Ok tt, put q None t) end
  end.

(** ** Reading and writing text *)
(** bytes.decode('utf-8'), strict: the bytes are the encoding of what they decode to *)
Definition decode_strict (b : list N) : result str :=
  let s := utf8_decode b in if str_eqb (flat_map utf8_char s) b && forallb scalar s then Ok s else Err UnicodeError.
(** Universal newlines: open(..., newline=None) *)
Fixpoint universal_newlines (s : str) : str :=
  match s with
  | [] => []
  | 13 :: r => match r with 10 :: r' => 10 :: universal_newlines r' | _ => 10 :: universal_newlines r end
  | c :: r => c :: universal_newlines r
  end.
(** open(...).read() of bytes at a resolved place *)
Definition read_place (t : tree) (r : result place) : result (list N) :=
  match r with
  | Err e => Err e
  | Ok p => match at_place t p with Some (NFile b) => Ok b | None => Err FileNotFoundError | _ => Err OSError end
  end.
(** Path(f).read_text(), with UTF-8 as the locale's encoding *)
Definition read_text (t : tree) (f : str) : result str :=
  match read_place t (presolve t true (is_abs f) (pnames f)) with
  | Err e => Err e
  | Ok b => match decode_strict b with Ok s => Ok (universal_newlines s) | Err e => Err e end
  end.
(** Path(f).write_text(s): the file is opened, and emptied, before the text is encoded *)
Definition write_text (f s : str) : act unit := fun t =>
  match presolve t true (is_abs f) (pnames f) with
  | Err e => (Err e, t)
  | Ok p => match at_place t p with
            | Some NDir | Some (NLink _) => (Err OSError, t)   (* no link: it has been followed *)
            | _ => match utf8_encode s with
                   | Ok b => (Ok tt, put p (Some (NFile b)) t)
                   | Err e => (Err e, put p (Some (NFile [])) t)
                   end
            end
  end.
(** Path(f).parent.mkdir(parents=True, exist_ok=True) *)
Definition mkdir_parent (f : str) : act unit := path_mkdirs (is_abs f) (match rev (pnames f) with [] => [] | _ :: r => r end).

(** ** os.path.relpath *)
(** posixpath.normpath of an absolute path, as names *)
Fixpoint norm_names (l : list str) (acc : place) : place :=
  match l with
  | [] => acc
  | c :: r => if str_eqb c [] || str_eqb c dot then norm_names r acc
              else if str_eqb c dotdot then norm_names r (removelast acc)
              else norm_names r (acc ++ [c])
  end.
(** abspath(p), as names; the current directory has no '.', '..' in it *)
Definition abs_names (p : str) : place := norm_names (names p) (start_of p).
(** what two lists have in common at their beginnings is cut off *)
Fixpoint cut_common (p q : place) : place * place :=
  match p, q with
  | x :: p', y :: q' => if str_eqb x y then cut_common p' q' else (p, q)
  | _, _ => (p, q)
  end.
(** '/'.join(l) *)
Fixpoint join_slash (l : list str) : str :=
  match l with [] => [] | [x] => x | x :: r => x ++ slash :: join_slash r end.
(** relpath(path, start); join of plain names *)
Definition relpath (path start : str) : result str :=
  match path with
  | [] => Err ValueError
  | _ => let '(s, p) := cut_common (abs_names start) (abs_names path) in
         Ok (match map (fun _ => dotdot) s ++ p with [] => dot | l => join_slash l end)
  end.
End Posix.
