(** * ConcurModel: several fetchmgr.py at once

    FetchModel gives one run as a function of the world.  Here the same functions are programs that stop at every system call, so that several processes can take
    turns on one file system.  C99_alone relates the two. *)

From Verif Require Import PyBase FetchModel.
Local Open Scope Z_scope.

(** A process at its next system call: the end, os.path.exists, os.makedirs, requests.get, and open, write and close of a file; an exception ends it
    (nothing is caught in fetchmgr.py:48-113). *)
Inductive proc :=
| PEnd (r : result reply)
| PExists (p : str) (k : bool -> proc)
| PMkdirs (d : str) (k : proc)
| PGet (url : str) (k : Z * list N -> proc)
| PSave (p : str) (content : list N) (k : proc).
(** Not in /repo: a part of a program, given what comes after it. *)
Definition prog (A : Type) : Type := (A -> proc) -> proc.
(** Not in /repo: returns a value. *)
Definition pret {A} (a : A) : prog A := fun k => k a.
(** Not in /repo: raises. *)
Definition pfail {A} (e : exn) : prog A := fun _ => PEnd (Err e).
(** Not in /repo: one part after the other. *)
Definition pbind {A B} (x : prog A) (f : A -> prog B) : prog B := fun k => x (fun a => f a k).
Declare Scope prog_scope.
Delimit Scope prog_scope with prog.
Notation "'do!' x ':=' e 'in' b" := (pbind e (fun x => b)) (at level 200, x pattern, e at level 100, b at level 200, right associativity) : prog_scope.
Local Open Scope prog_scope.
(** os.makedirs (fetchmgr.py:65 and 80) *)
Definition pmkdirs (d : str) : prog unit := fun k => PMkdirs d (k tt).
(** with open(p, "wb") as f: f.write(content) (fetchmgr.py:68-69) *)
Definition psave (p : str) (content : list N) : prog unit := fun k => PSave p content (k tt).
(** d[key] (fetchmgr.py:78-110) *)
Definition pkey {A} (o : option A) : prog A := match o with Some a => pret a | None => pfail KeyError end.
(** l[i] (fetchmgr.py:88-110) *)
Definition pindex {A} (i : nat) (l : list A) : prog A := match nth_error l i with Some a => pret a | None => pfail IndexError end.

(** fetch_url_to_subdir, fetchmgr.py:48-74 *)
Definition fetch_url_p (url subdir localpath : str) : prog (Z * list N) :=
  if negb (nonempty url) || negb (nonempty subdir) || negb (nonempty localpath) then pfail GenericException
  else
    do! response := PGet url in
    if fst response =? 200 then
      let d := dirname localpath in
      do! there := PExists d in
      do! _ := (if there then pret tt else pmkdirs d) in
      do! there := PExists d in
      if there then do! _ := psave localpath (snd response) in pret response
      else pfail GenericException
    else pret response.
(** fetchmgr.py:96-103, 105-112 *)
Definition fetch_if_missing_p (subdir localpath : str) (get_url : prog str) (ud : urldict) (response : reply) : prog reply :=
  do! there := PExists localpath in
  if there then pret response
  else
    do! url := get_url in
    do! metas := pkey (ud_metaurls ud) in
    do! _ := pindex 0 metas in
    do! _ := pkey (ud_desc ud) in
    do! r := fetch_url_p url subdir localpath in
    pret (Some r).
(** fetchmgr.py:94-103 *)
Fixpoint fetch_urls_p (subdir : str) (ud : urldict) (localpaths : list str) (i : nat) (urls : list str) (response : reply) : prog reply :=
  match urls with
  | [] => pret response
  | suburl :: r =>
      do! lp := pindex i localpaths in
      do! response := fetch_if_missing_p subdir lp (pret suburl) ud response in
      fetch_urls_p subdir ud localpaths (S i) r response
  end.
(** fetchmgr.py:84-112 *)
Fixpoint fetch_entries_p (subdir : str) (uds : list urldict) (localpaths : list str) (localpath : option str) (response : reply) : prog reply :=
  match uds with
  | [] => pret response
  | ud :: r =>
      do! paths := match ud_localcopies ud with
                   | Some copies => pret (fill_paths subdir 0 copies localpaths, localpath)
                   | None => do! c := pkey (ud_localcopy ud) in pret (localpaths, Some (path_join subdir c))
                   end in
      do! response := match ud_urls ud with
                      | Some urls => fetch_urls_p subdir ud (fst paths) 0 urls response
                      | None => match snd paths with
                                | Some lp => fetch_if_missing_p subdir lp (pkey (ud_url ud)) ud response
                                | None => pfail NameError
                                end
                      end in
      fetch_entries_p subdir r (fst paths) (snd paths) response
  end.
(** fetch_web_items, fetchmgr.py:77-113 *)
Definition fetch_web_items_p (spec : fetchspec) : proc :=
  (do! there := PExists (f_subdir spec) in
   do! _ := (if there then pret tt else pmkdirs (f_subdir spec)) in
   fetch_entries_p (f_subdir spec) (f_web_urls spec) [] None None) (fun r => PEnd (Ok r)).

(** ** Processes that take turns *)
(** A process: at a system call, in the middle of writing a file (the offset of its file object, what is left to write, and what comes after; fetchmgr.py:68-69), or
    killed. *)
Inductive pstate := Ready (pr : proc) | Writing (p : str) (offset : nat) (left : list N) (k : proc) | Killed.
(** write(2) of one byte at an offset; a gap before it is filled with zeros (operating system, fetchmgr.py:69). *)
Fixpoint put_byte (offset : nat) (b : N) (content : list N) : list N :=
  match offset, content with
  | O, _ :: r => b :: r
  | O, [] => [b]
  | S o, x :: r => x :: put_byte o b r
  | S o, [] => 0%N :: put_byte o b []
  end.

Section Processes.
Variable real : str -> str.
Variable above : str -> list str.
(** What a request for a url may be answered. *)
Variable serves : str -> Z * list N -> Prop.
(** Whether anything may go wrong: the operating system refuses a call, a request is not answered, a process is killed. *)
Variable trouble : Prop.

(** One step of one process (operating system, for the calls of fetchmgr.py:48-113). *)
Inductive pstep : fs -> pstate -> fs -> pstate -> Prop :=
| st_exists f p k : pstep f (Ready (PExists p k)) f (Ready (k (exists_in real f p)))
| st_mkdirs f d k : d <> [] -> exists_in real f d = false -> pstep f (Ready (PMkdirs d k)) (Fs (fs_files f) (real d :: above d ++ fs_dirs f)) (Ready k)
| st_mkdirs_there f d k : d <> [] -> exists_in real f d = true -> pstep f (Ready (PMkdirs d k)) f (Ready (PEnd (Err FileExistsError)))
| st_mkdirs_empty f k : pstep f (Ready (PMkdirs [] k)) f (Ready (PEnd (Err FileNotFoundError)))
| st_mkdirs_refused f d k : trouble -> pstep f (Ready (PMkdirs d k)) f (Ready (PEnd (Err OSError)))
| st_get f url k r : serves url r -> pstep f (Ready (PGet url k)) f (Ready (k r))
| st_get_refused f url k : trouble -> pstep f (Ready (PGet url k)) f (Ready (PEnd (Err RequestException)))
| st_open f p c k : ~ In (real p) (fs_dirs f) -> pstep f (Ready (PSave p c k)) (Fs (dset (real p) [] (fs_files f)) (fs_dirs f)) (Writing p 0 c k)
| st_open_dir f p c k : In (real p) (fs_dirs f) -> pstep f (Ready (PSave p c k)) f (Ready (PEnd (Err OSError)))
| st_open_refused f p c k : trouble -> pstep f (Ready (PSave p c k)) f (Ready (PEnd (Err OSError)))
| st_byte f p o b r k x : dget (real p) (fs_files f) = Some x -> pstep f (Writing p o (b :: r) k) (Fs (dset (real p) (put_byte o b x) (fs_files f)) (fs_dirs f)) (Writing p (S o) r k)
| st_byte_refused f p o r k : trouble -> pstep f (Writing p o r k) f (Ready (PEnd (Err OSError)))
| st_close f p o k : pstep f (Writing p o [] k) f (Ready k)
| st_killed f pr : trouble -> pr <> Killed -> (forall r, pr <> Ready (PEnd r)) -> pstep f pr f Killed.
(** One step of one of the processes. (Not in /repo: the scheduler.) *)
Inductive sstep : fs * list pstate -> fs * list pstate -> Prop :=
| turn f f' l1 st st' l2 : pstep f st f' st' -> sstep (f, l1 ++ st :: l2) (f', l1 ++ st' :: l2).
(** Any number of steps. (Not in /repo: the scheduler.) *)
Inductive reach : fs * list pstate -> fs * list pstate -> Prop :=
| here s : reach s s
| further s s1 s2 : reach s s1 -> sstep s1 s2 -> reach s s2.
End Processes.
(** Processes that have just been started, one for each specification (fetchmgr.py:236-243 for web_urls). *)
Definition started (specs : list fetchspec) : list pstate := map (fun s => Ready (fetch_web_items_p s)) specs.
