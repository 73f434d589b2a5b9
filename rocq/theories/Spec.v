(** * Spec: the vocabulary of the property statements.

    Deliberately small and independent of the model's algorithms: it only speaks about ballots
    (who is ranked where), quantities and sums. *)

From Verif Require Import PyBase Jabmod.
Local Open Scope Z_scope.

(** The candidates of a model, in table order. *)
Definition cands (m : jabmod) : list str := map fst (j_candidates m).

(** The rank a voteline gives to a candidate ([None]: not listed, or listed without a rank). *)
Definition rank_on (l : voteline) (c : str) : option Z :=
  match dget c (v_prefs l) with Some p => p_rank p | None => None end.

(** The voteline lists the candidate. *)
Definition lists (l : voteline) (c : str) : bool :=
  match dget c (v_prefs l) with Some _ => true | None => false end.

(** The voteline ranks [a] strictly better than [b]: lower rank number, or [a] ranked and [b] not. *)
Definition prefers (l : voteline) (a b : str) : bool :=
  match rank_on l a, rank_on l b with
  | Some x, Some y => x <? y
  | Some _, None => true
  | None, _ => false
  end.

(** Number of ballots satisfying a condition. *)
Definition ballots_where (p : voteline -> bool) (ls : list voteline) : Z :=
  zsum (map (fun l => if p l then v_qty l else 0) ls).

Definition total_ballots (m : jabmod) : Z := zsum (map v_qty (j_votelines m)).

Definition votes_over (m : jabmod) (a b : str) : Z :=
  ballots_where (fun l => prefers l a b) (j_votelines m).

(** Every candidate listed on the line has a rank, below the bound used for "unlisted". *)
Definition line_ranked (bound : Z) (l : voteline) : bool :=
  forallb (fun kv => match p_rank (snd kv) with Some r => r <? bound | None => false end) (v_prefs l).

(** The matrix with rows and columns [cs] (in that order) and entry [f a b]. *)
Definition matrix {V} (cs : list str) (f : str -> str -> V) : dict (dict V) :=
  map (fun a => (a, map (fun b => (b, f a b)) cs)) cs.

(** Head-to-head outcomes, from any table of votes. *)
Definition beats (v : str -> str -> Z) (a b : str) : bool := v b a <? v a b.
Definition ties_with (v : str -> str -> Z) (a b : str) : bool := v b a =? v a b.

(** Number of elements satisfying a condition. *)
Definition count {A} (p : A -> bool) (l : list A) : Z := Z.of_nat (List.length (filter p l)).

(** The other candidates. *)
Definition others (a : str) (cs : list str) : list str := filter (fun b => negb (str_eqb a b)) cs.

(** The rating a voteline gives to a candidate, as a number; 0 if none is given. *)
Definition rating_on (l : voteline) (c : str) : Z :=
  match dget c (v_prefs l) with
  | Some p => match p_rating p with
              | Some r => match rating_int r with Ok z => z | Err _ => 0 end
              | None => 0
              end
  | None => 0
  end.

(** A stored rating that int() accepts. *)
Definition readable (r : ratingval) : bool := match rating_int r with Ok _ => true | Err _ => false end.

(** The voteline is a proper dict listing only candidates of [cs]. *)
Definition line_ok (cs : list str) (l : voteline) : Prop :=
  NoDup (map fst (v_prefs l)) /\ incl (map fst (v_prefs l)) cs.

(** All ratings on the line are readable as integers. *)
Definition line_rated (l : voteline) : bool :=
  forallb (fun kv => match p_rating (snd kv) with Some r => readable r | None => true end) (v_prefs l).

(** Number of different values in a list. *)
Definition distinct_values (l : list Z) : Z := Z.of_nat (List.length (nodup Z.eq_dec l)).

(** Dense rank (1 = best, no gaps) of value [z] among the values [l], greater is better. *)
Definition dense_rank (z : Z) (l : list Z) : Z := 1 + distinct_values (filter (fun x => z <? x) l).

(** ** Instant-runoff vocabulary *)

(** Among the candidates [cs], the line's best-ranked candidate is [c], strictly. *)
Definition top_choice (cs : list str) (l : voteline) (c : str) : bool :=
  memb c cs && lists l c && forallb (fun d => str_eqb c d || prefers l c d) cs.

(** The line lists nobody of [cs]. *)
Definition lists_nobody (cs : list str) (l : voteline) : bool := forallb (fun c => negb (lists l c)) cs.

(** No two candidates on the line have the same rank, nobody's rank reaches [bound], and no candidate
    token is empty. *)
Definition strict_line (bound : Z) (l : voteline) : Prop :=
  (forall c c' r, rank_on l c = Some r -> rank_on l c' = Some r -> c = c') /\
  (forall c r, rank_on l c = Some r -> r < bound) /\
  ~ In [] (map fst (v_prefs l)).

(** Everybody in [s] is ranked above every candidate of [cs] outside [s]; unlisted counts as last. *)
Definition solid_for (s cs : list str) (l : voteline) : bool :=
  forallb (fun a => forallb (fun b => negb (memb a s) || memb b s || prefers l a b) cs) cs.
