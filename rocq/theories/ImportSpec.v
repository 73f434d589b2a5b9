(** * ImportSpec: the vocabulary of the statements about PrefLib files and Debian tally sheets. *)

From Verif Require Import PyBase Jabmod Spec ParserSpec.
Local Open Scope Z_scope.

(** Tiers of candidates, best first, as ABIF writes them: '=' inside a tier, '>' between tiers. *)
Definition tiers_text (tiers : list (list str)) : str := join [62%N] (map (join [61%N]) tiers).

(** The rank of a candidate: the number of its tier, counted from 1. *)
Fixpoint tier_rank_from (k : Z) (tiers : list (list str)) (c : str) : option Z :=
  match tiers with
  | [] => None
  | t :: r => if memb c t then Some k else tier_rank_from (k + 1) r c
  end.
Definition tier_rank : list (list str) -> str -> option Z := tier_rank_from 1.

(** A candidate line of an imported file, and the line between candidates and votes. *)
Definition candidate_line (tok name : str) : str := cand_line true tok name.
Definition rule_line : str := u "# ---------------".

(** ** PrefLib *)

(** A tier of a PrefLib ranking: one alternative number, or several in braces. *)
Inductive pl_tier := One (n : N) | Tied (ns : list N).
Definition tier_numbers (t : pl_tier) : list N := match t with One n => [n] | Tied ns => ns end.

(** The lines of a PrefLib file: other header lines, names of alternatives, rankings (each tier with the
    white space before it). *)
Inductive pl_line :=
| PlHeader (text : str)
| PlName (num : N) (name : str)
| PlRanking (qty : N) (tiers : list (str * pl_tier)).

Definition show_tier (t : pl_tier) : str :=
  match t with
  | One n => n2s n
  | Tied ns => [123%N] ++ join [44%N] (map n2s ns) ++ [125%N]
  end.
Definition show_pl (l : pl_line) : str :=
  match l with
  | PlHeader text => [35%N] ++ text
  | PlName num name => u "# ALTERNATIVE NAME " ++ n2s num ++ u ": " ++ name
  | PlRanking qty tiers => n2s qty ++ u ": " ++ join [44%N] (map (fun pt => fst pt ++ show_tier (snd pt)) tiers)
  end.

Definition pl_ok (l : pl_line) : Prop :=
  match l with
  | PlHeader text => one_line text /\ strip_prefix (u " ALTERNATIVE NAME ") text = None
  | PlName _ name => one_line name
  | PlRanking _ tiers => forall pad t, In (pad, t) tiers -> blank pad /\ tier_numbers t <> []
  end.

Definition pl_names (ls : list pl_line) : list str :=
  flat_map (fun l => match l with PlName _ name => [name] | _ => [] end) ls.
Definition pl_declared (ls : list pl_line) : list N :=
  flat_map (fun l => match l with PlName num _ => [num] | _ => [] end) ls.
(** The rankings: quantity and tiers of alternative numbers. *)
Definition pl_rankings (ls : list pl_line) : list (N * list (list N)) :=
  flat_map (fun l => match l with
                     | PlRanking q tiers => [(q, map (fun pt => tier_numbers (snd pt)) tiers)]
                     | _ => []
                     end) ls.
Definition pl_file (ls : list pl_line) : str := unlines (map show_pl ls).

(** The name of the alternative declared with number [n], and its name without spaces. *)
Fixpoint name_of_number (ls : list pl_line) (n : N) : option str :=
  match ls with
  | [] => None
  | PlName num name :: r => if N.eqb num n then Some name else name_of_number r n
  | _ :: r => name_of_number r n
  end.
Definition without_spaces (s : str) : str := filter (fun c => negb (N.eqb c 32)) s.
Definition token_of_number (ls : list pl_line) (n : N) : str :=
  match name_of_number ls n with Some name => without_spaces name | None => [] end.

(** The alternatives are declared in order, numbered from 1. *)
Definition numbered (ls : list pl_line) : Prop :=
  pl_declared ls = map N.of_nat (seq 1 (length (pl_declared ls))).

(** ** Debian tally sheets *)

(** The lines of a tally sheet: a declaration of an option, a vote (one mark per option: a rank or a
    dash, then the voter's id), anything else. *)
Inductive deb_line :=
| DebOption (indent : str) (num : N) (desc pad name : str)
| DebVote (marks : list (option N)) (sep id rest : str)
| DebOther (text : str).

Definition show_mark (m : option N) : N := match m with Some r => (48 + r)%N | None => 45%N end.
Definition show_deb (l : deb_line) : str :=
  match l with
  | DebOption indent num desc pad name => indent ++ u "Option " ++ n2s num ++ desc ++ [58%N] ++ pad ++ name
  | DebVote marks sep id rest => u "V: " ++ map show_mark marks ++ sep ++ id ++ rest
  | DebOther text => text
  end.

(** Nowhere in the text. *)
Definition nowhere (w s : str) : Prop := forall a b, s <> a ++ w ++ b.
(** No colon followed by white space. *)
Definition no_colon_space (s : str) : Prop := forall a c b, s = a ++ 58%N :: c :: b -> is_space c = false.

Definition deb_ok (l : deb_line) : Prop :=
  match l with
  | DebOption indent num desc pad name =>
      blank indent /\ one_line desc /\ blank pad /\ pad <> [] /\
      one_line name /\ starts is_space name = false /\ no_colon_space name
  | DebVote marks sep id rest =>
      marks <> [] /\ (forall r, In (Some r) marks -> (1 <= r <= 9)%N) /\ blank sep /\ sep <> [] /\
      id <> [] /\ (forall c, In c id -> is_space c = false) /\ one_line rest /\ (rest <> [] -> starts is_space rest = true) /\
      nowhere (u "Option ") (show_deb l)
  | DebOther text => one_line text /\ nowhere (u "Option ") text /\ strip_prefix (u "V: ") text = None
  end.

Definition deb_names (ls : list deb_line) : list str :=
  flat_map (fun l => match l with DebOption _ _ _ _ name => [name] | _ => [] end) ls.
Definition deb_votes (ls : list deb_line) : list (list (option N) * str) :=
  flat_map (fun l => match l with DebVote marks _ id _ => [(marks, id)] | _ => [] end) ls.
Definition deb_sheet (ls : list deb_line) : str := unlines (map show_deb ls).

(** The tiers of a vote over options with the given tokens: for each rank in order, the options given
    that rank, ranks nobody is given left out. *)
Definition options_at (toks : list str) (marks : list (option N)) (r : N) : list str :=
  map fst (filter (fun tm => match snd tm with Some x => N.eqb x r | None => false end) (combine toks marks)).
Definition vote_tiers_of (toks : list str) (marks : list (option N)) : list (list str) :=
  filter (fun t => match t with [] => false | _ => true end)
    (map (fun r => options_at toks marks (N.of_nat r)) (seq 1 (length toks))).

(** The abbreviation of an option's name: the name itself if it consists of 1 to 20 ASCII letters and
    digits, otherwise its first 20 ASCII letters and digits; NOTA for none of the above. *)
Definition letter_digit (c : N) : bool :=
  ((48 <=? c) && (c <=? 57) || (65 <=? c) && (c <=? 90) || (97 <=? c) && (c <=? 122))%N.
Definition ascii_lower (c : N) : N := if ((65 <=? c) && (c <=? 90))%N then (c + 32)%N else c.
Definition is_nota (s : str) : Prop := map ascii_lower s = u "none of the above".
Definition abbreviation (name : str) : str :=
  if str_eqb (map ascii_lower name) (u "none of the above") then u "NOTA" else firstn 20 (filter letter_digit name).
(** The phrase does not occur in the name, or is all of it. *)
Definition nota_free (name : str) : Prop := is_nota name \/ forall a w b, name = a ++ w ++ b -> ~ is_nota w.

(** ** Names that survive the trip through ABIF *)
(** No line boundary, no # [ ] > = , : / or double quote. *)
Definition import_char (c : N) : bool := plain_char c && negb (existsb (N.eqb c) [34; 47; 58]%N).
(** A name of such characters that, spaces removed, is neither empty nor padded with other white space. *)
Definition import_name (name : str) : Prop :=
  forallb import_char name = true /\ without_spaces name <> [] /\ strip (without_spaces name) = without_spaces name.

(** The voteline gives [qty] ballots ranking the candidates in these tiers, and nobody else. *)
Definition votes_tiers (qty : N) (tiers : list (list str)) (v : voteline) : Prop :=
  v_qty v = Z.of_N qty /\ (forall c, rank_on v c = tier_rank tiers c) /\ dkeys (v_prefs v) = concat tiers.
