(** * FetchModel: fetchmgr.py, downloading *)

From Verif Require Import PyBase.
Local Open Scope Z_scope.

(** ** os.path *)
(* The separator in paths (os.path, used in fetchmgr.py:62-91). *)
Definition slash : N := 47.
(** os.path.join(a, b), posixpath (fetchmgr.py:88 and 91) *)
Definition path_join (a b : str) : str :=
  match b with
  | c :: _ => if (c =? slash)%N then b else
      match rev a with [] => b | d :: _ => if (d =? slash)%N then a ++ b else a ++ slash :: b end
  | [] => match rev a with [] => b | d :: _ => if (d =? slash)%N then a ++ b else a ++ slash :: b end
  end.
(** p[:p.rfind('/') + 1] (fetchmgr.py:62) *)
Fixpoint upto_last_slash (s : str) : str :=
  match s with
  | [] => []
  | c :: r => if existsb (N.eqb slash) (c :: r) then c :: upto_last_slash r else []
  end.
(** head.rstrip('/') on the reversed string, in os.path.split (called by fetchmgr.py:62) *)
Fixpoint drop_slashes (s : str) : str := match s with c :: r => if (c =? slash)%N then drop_slashes r else s | [] => [] end.
(** os.path.split(p)[0], posixpath (fetchmgr.py:62) *)
Definition dirname (p : str) : str :=
  let head := upto_last_slash p in
  if forallb (N.eqb slash) head then head else rev (drop_slashes (rev head)).

(** ** The world *)
(** Files and directories by the place a path string leads to ([real] below: cwd, '.', '..' and links resolved). (fetchmgr.py:48-113) *)
Record fs := Fs { fs_files : dict (list N); fs_dirs : list str }.
(** What fetchmgr.py:48-113 does to the world, step by step: os.makedirs, requests.get, open(..., 'wb') and each byte written. *)
Inductive step := SMkdirs (d : str) | SRequest (url : str) | SOpen (p : str) | SByte (p : str) (b : N).
(** The file system and what has been done so far. *)
Record world := World { w_fs : fs; w_log : list step }.
(** What the world outside answers, by the number of steps done so far: the reply to a request (None: requests
    raises), and whether the operating system refuses a step. (fetchmgr.py:59 and 64-69) *)
Record env := Env { e_reply : nat -> str -> option (Z * list N); e_refuses : nat -> bool }.
(** Not in /repo: a computation that reads and changes the world and may raise. *)
Definition io (A : Type) : Type := world -> result A * world.
(** Not in /repo: returns a value and does nothing. *)
Definition ret {A} (a : A) : io A := fun w => (Ok a, w).
(** Not in /repo: raises. *)
Definition fail {A} (e : exn) : io A := fun w => (Err e, w).
(** Not in /repo: one computation after the other. *)
Definition ibind {A B} (x : io A) (f : A -> io B) : io B := fun w => match x w with (Ok a, w') => f a w' | (Err e, w') => (Err e, w') end.
Declare Scope io_scope.
Delimit Scope io_scope with io.
Notation "'do*' x ':=' e 'in' b" := (ibind e (fun x => b)) (at level 200, x pattern, e at level 100, b at level 200, right associativity) : io_scope.
Local Open Scope io_scope.

(** An entry of web_urls of a fetchspec, with the keys that fetchmgr.py:84-112 uses; None: the key is absent. *)
Record urldict := Urldict {
  ud_localcopies : option (list str); ud_localcopy : option str; ud_urls : option (list str); ud_url : option str;
  ud_metaurls : option (list str); ud_desc : option str
}.
(** The part of a fetchspec that fetchmgr.py:77-84 uses. *)
Record fetchspec := Fetchspec { f_subdir : str; f_web_urls : list urldict }.

Section Fetch.
(** [real p]: the place path p leads to; [above d]: the directories os.makedirs creates besides d. *)
Variable real : str -> str.
Variable above : str -> list str.
Variable en : env.

(** The effect of a step on the files (operating system, see [step]). (fetchmgr.py:59-69) *)
Definition do_step (s : step) (f : fs) : fs :=
  match s with
  | SMkdirs d => Fs (fs_files f) (real d :: above d ++ fs_dirs f)
  | SRequest _ => f
  | SOpen p => Fs (dset (real p) [] (fs_files f)) (fs_dirs f)
  | SByte p b => Fs (dset (real p) (match dget (real p) (fs_files f) with Some c => c | None => [] end ++ [b]) (fs_files f)) (fs_dirs f)
  end.
(** A step, unless the operating system refuses it. (fetchmgr.py:59-69) *)
Definition perform (s : step) : io unit := fun w =>
  if e_refuses en (length (w_log w)) then (Err OSError, w) else (Ok tt, World (do_step s (w_fs w)) (w_log w ++ [s])).
(** os.path.exists (fetchmgr.py:64-67, 79, 96, 105), on the files. *)
Definition exists_in (f : fs) (p : str) : bool :=
  match p with [] => false | _ => dmem (real p) (fs_files f) || memb (real p) (fs_dirs f) end.
(** os.path.exists (fetchmgr.py:64, 67, 79, 96, 105) *)
Definition path_exists (p : str) : io bool := fun w => (Ok (exists_in (w_fs w) p), w).
(** os.makedirs; it raises for an empty name and if the name exists (fetchmgr.py:65 and 80) *)
Definition makedirs (d : str) : io unit :=
  match d with
  | [] => fail FileNotFoundError
  | _ => do* e := path_exists d in if e then fail FileExistsError else perform (SMkdirs d)
  end.
(** requests.get (fetchmgr.py:59) *)
Definition requests_get (url : str) : io (Z * list N) := fun w =>
  let w' := World (w_fs w) (w_log w ++ [SRequest url]) in
  match e_reply en (length (w_log w)) url with Some r => (Ok r, w') | None => (Err RequestException, w') end.
(** open(p, "wb"); a directory cannot be opened (fetchmgr.py:68) *)
Definition open_wb (p : str) : io unit := fun w =>
  if memb (real p) (fs_dirs (w_fs w)) then (Err OSError, w) else perform (SOpen p) w.
(** f.write(content): the bytes reach the file one after the other (fetchmgr.py:69) *)
Fixpoint write_all (p : str) (content : list N) : io unit :=
  match content with [] => ret tt | b :: r => do* _ := perform (SByte p b) in write_all p r end.

(** bool(s) for a str (fetchmgr.py:49) *)
Definition nonempty (s : str) : bool := match s with [] => false | _ => true end.
(** fetch_url_to_subdir, fetchmgr.py:48-74.  Messages to stderr are not modelled. *)
Definition fetch_url_to_subdir (url subdir localpath : str) : io (Z * list N) :=
  if negb (nonempty url) || negb (nonempty subdir) || negb (nonempty localpath) then fail GenericException
  else
    do* response := requests_get url in
    if fst response =? 200 then
      let d := dirname localpath in
      do* there := path_exists d in
      do* _ := (if there then ret tt else makedirs d) in
      do* there := path_exists d in
      if there then do* _ := open_wb localpath in do* _ := write_all localpath (snd response) in ret response
      else fail GenericException
    else ret response.

(** d[key] with a key that may be absent: KeyError (fetchmgr.py:78-110) *)
Definition key {A} (o : option A) : io A := match o with Some a => ret a | None => fail KeyError end.
(** l[i] with IndexError (fetchmgr.py:88-110) *)
Definition at_index {A} (i : nat) (l : list A) : io A := match nth_error l i with Some a => ret a | None => fail IndexError end.
(** The placeholder of fetchmgr.py:87 *)
Definition REPLACETHIS : str := u "REPLACETHIS".
(** l[n] = x, fetchmgr.py:88 *)
Fixpoint set_nth {A} (n : nat) (x : A) (l : list A) : list A :=
  match n, l with O, _ :: r => x :: r | S k, y :: r => y :: set_nth k x r | _, [] => [] end.
(** fetchmgr.py:86-88: the list is shared by all entries of the fetchspec and only grows *)
Fixpoint fill_paths (subdir : str) (i : nat) (copies : list str) (localpaths : list str) : list str :=
  match copies with
  | [] => localpaths
  | c :: r => fill_paths subdir (S i) r (set_nth i (path_join subdir c) (localpaths ++ [REPLACETHIS]))
  end.

(** The response of requests.get, or None if there was none (fetchmgr.py:59-74, 82) *)
Definition reply := option (Z * list N).
(** fetchmgr.py:96-103, 105-112.  [Some ud]: url, metaurls[0] and desc are looked up only when needed. *)
Definition fetch_if_missing (subdir localpath : str) (get_url : io str) (ud : urldict) (response : reply) : io reply :=
  do* there := path_exists localpath in
  if there then ret response
  else
    do* url := get_url in
    do* metas := key (ud_metaurls ud) in
    do* _ := at_index 0 metas in
    do* _ := key (ud_desc ud) in
    do* r := fetch_url_to_subdir url subdir localpath in
    ret (Some r).
(** fetchmgr.py:94-103: the loop over the urls *)
Fixpoint fetch_urls (subdir : str) (ud : urldict) (localpaths : list str) (i : nat) (urls : list str) (response : reply) : io reply :=
  match urls with
  | [] => ret response
  | suburl :: r =>
      do* lp := at_index i localpaths in
      do* response := fetch_if_missing subdir lp (ret suburl) ud response in
      fetch_urls subdir ud localpaths (S i) r response
  end.
(** fetchmgr.py:84-112; localpath is unbound until an entry with 'localcopy' is met *)
Fixpoint fetch_entries (subdir : str) (uds : list urldict) (localpaths : list str) (localpath : option str) (response : reply) : io reply :=
  match uds with
  | [] => ret response
  | ud :: r =>
      do* paths := match ud_localcopies ud with
                   | Some copies => ret (fill_paths subdir 0 copies localpaths, localpath)
                   | None => do* c := key (ud_localcopy ud) in ret (localpaths, Some (path_join subdir c))
                   end in
      do* response := match ud_urls ud with
                      | Some urls => fetch_urls subdir ud (fst paths) 0 urls response
                      | None => match snd paths with
                                | Some lp => fetch_if_missing subdir lp (key (ud_url ud)) ud response
                                | None => fail NameError
                                end
                      end in
      fetch_entries subdir r (fst paths) (snd paths) response
  end.
(** fetch_web_items, fetchmgr.py:77-113.  None stands for the initial False. *)
Definition fetch_web_items (spec : fetchspec) : io reply :=
  do* there := path_exists (f_subdir spec) in
  do* _ := (if there then ret tt else makedirs (f_subdir spec)) in
  fetch_entries (f_subdir spec) (f_web_urls spec) [] None None.
End Fetch.

(** A run on a file system, from an empty log. (fetchmgr.py:77-113) *)
Definition run {A} (x : io A) (f : fs) : result A * world := x (World f []).
(** What is on disk after the first k steps: a crash can leave any of these. (fetchmgr.py:77-113) *)
Definition after_steps (real : str -> str) (above : str -> list str) (steps : list step) (f : fs) : fs :=
  fold_left (fun f s => do_step real above s f) steps f.
