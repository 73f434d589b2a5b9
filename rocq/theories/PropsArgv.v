(** * PropsArgv: C91, the command line *)

From Verif Require Import PyBase PyFacts Jabmod IrvModel RegexFacts ParserFacts TextFacts NameqFacts.
From Verif Require Import JsonText JsonFacts JsonParse JsonParseFacts JabmodJson PropsJson ResultsJson CliModel PropsCli.
From Verif Require Import ArgvModel.
Local Open Scope Z_scope.

(** ** Specification *)
(** What one option on the command line asks for *)
Inductive setting := From (v : str) | To (v : str) | Modifier (v : str) | Width (z : Z) | Debug | CleanWs | AddScores.
Definition valid (x : setting) : Prop :=
  match x with From v => In v validinfmts | To v => In v validoutfmts | Modifier v => In v validmod | _ => True end.
(** The ways to write it: -f X, -fX, -f=X, --fromfmt X, --fromfmt=X, and any abbreviation of the long names down to one letter (--f X, --from=X) *)
Definition abbreviates (p long : str) : Prop := (3 <= length p)%nat /\ exists rest, long = p ++ rest.
Definition dashed (s : str) : Prop := exists c r, s = 45%N :: c :: r.
Definition an_argument (v : str) : Prop := ~ dashed v \/ exists z, v = z2s z.
Inductive with_value (short long v : str) : list str -> Prop :=
| short_apart : an_argument v -> with_value short long v [short; v]
| short_attached : v <> [] -> hd 0%N v <> 61%N -> with_value short long v [short ++ v]
| short_equals : with_value short long v [short ++ u "=" ++ v]
| long_apart p : abbreviates p long -> an_argument v -> with_value short long v [p; v]
| long_equals p : abbreviates p long -> with_value short long v [p ++ u "=" ++ v].
Inductive written : setting -> list str -> Prop :=
| w_from v l : with_value (u "-f") (u "--fromfmt") v l -> written (From v) l
| w_to v l : with_value (u "-t") (u "--to") v l -> written (To v) l
| w_modifier v l : with_value (u "-m") (u "--modifier") v l -> written (Modifier v) l
| w_width z l : with_value (u "-w") (u "--width") (z2s z) l -> written (Width z) l
| w_d : written Debug [u "-d"]
| w_debug p : abbreviates p (u "--debug") -> written Debug [p]
| w_cleanws p : abbreviates p (u "--cleanws") -> written CleanWs [p]
| w_add_scores p : abbreviates p (u "--add-scores") -> written AddScores [p].
(** The letters - h d f t m w of the options *)
Definition letters : list N := [45; 104; 100; 102; 116; 109; 119]%N.
(** What they ask for together: the last of several -f, -t or -w counts, the -m add up *)
Definition froms (l : list setting) : list str := flat_map (fun x => match x with From v => [v] | _ => [] end) l.
Definition tos (l : list setting) : list str := flat_map (fun x => match x with To v => [v] | _ => [] end) l.
Definition mods (l : list setting) : list str := flat_map (fun x => match x with Modifier v => [v] | _ => [] end) l.
Definition widths (l : list setting) : list Z := flat_map (fun x => match x with Width z => [z] | _ => [] end) l.
Definition has_debug (l : list setting) : bool := existsb (fun x => match x with Debug => true | _ => false end) l.
Definition has_cleanws (l : list setting) : bool := existsb (fun x => match x with CleanWs => true | _ => false end) l.
Definition has_add_scores (l : list setting) : bool := existsb (fun x => match x with AddScores => true | _ => false end) l.
Definition requested (files : list str) (l : list setting) : args * bool :=
  (Args files (last (map Some (froms l)) None) (last (tos l) (u "text")) (match mods l with [] => None | ms => Some ms end) (last (widths l) 160)
        (has_cleanws l) (has_add_scores l), has_debug l).

(** ** Reading one option *)
Definition act (x : setting) : action := match x with From _ => AFrom | To _ => ATo | Modifier _ => AModifier | Width _ => AWidth | Debug => ADebug | CleanWs => ACleanws | AddScores => AAddScores end.
Definition val (x : setting) : str := match x with From v | To v | Modifier v => v | Width z => z2s z | _ => [] end.
Definition reads_option (a : action) (v : str) (t : list str) : Prop :=
  exists toks, (forall rest, classify (t ++ rest) = then_ (classify rest) (fun l => inl (toks ++ l)))
    /\ (forall r g ns ex, consume (toks ++ r) g ns ex = let (ns, ex) := close_group g ns ex in then_ (take_option a v ns) (fun ns => consume r [] ns ex)).

Lemma then_then {A B C} (x : parsing A) (f : A -> parsing B) (g : B -> parsing C) : then_ (then_ x f) g = then_ x (fun a => then_ (f a) g).
Proof. destruct x; reflexivity. Qed.
Lemma then_ext {A B} (x : parsing A) (f g : A -> parsing B) : (forall a, f a = g a) -> then_ x f = then_ x g.
Proof. intro H. destruct x; cbn; auto. Qed.

Lemma classify_arg v rest : parse_optional v = inl None -> v <> u "--" -> classify (v :: rest) = then_ (classify rest) (fun l => inl (TArgument v :: l)).
Proof. intros H Hn. cbn [classify]. rewrite (proj2 (str_eqb_neq v (u "--")) Hn), H. reflexivity. Qed.
Lemma classify_opt v t rest : parse_optional v = inl (Some t) -> v <> u "--" -> classify (v :: rest) = then_ (classify rest) (fun l => inl (TOption t v :: l)).
Proof. intros H Hn. cbn [classify]. rewrite (proj2 (str_eqb_neq v (u "--")) Hn), H. reflexivity. Qed.

Lemma plain_argument v : ~ dashed v -> parse_optional v = inl None /\ v <> u "--".
Proof.
  intro H. destruct v as [|c v]; [split; [reflexivity | discriminate]|]. split.
  - cbn [parse_optional]. destruct (N.eqb_spec c 45) as [-> |Hc]; [|reflexivity]. cbn [negb]. destruct v as [|d v]; [reflexivity|]. exfalso. apply H. exists d, v. reflexivity.
  - intros E. apply H. exists 45%N, []. exact E.
Qed.

Lemma option_second s a : In (s, a) option_strings -> exists c r, s = 45%N :: c :: r /\ In c letters.
Proof.
  intro H. unfold option_strings, letters in *. cbn [In] in *.
  repeat (destruct H as [H|H]; [injection H as <- <-; eexists _, _; split; [reflexivity|tauto]|]). destruct H.
Qed.
Lemma not_option c r : ~ In c letters -> dget (45%N :: c :: r) option_strings = None.
Proof.
  intro H. apply dget_None. intro Hin. apply in_map_iff in Hin as ([s a]&E&Hin). cbn [fst] in E. apply option_second in Hin as (d&q&E1&Hd). congruence.
Qed.
Lemma no_tuples c r : ~ In c letters -> get_option_tuples (45%N :: c :: r) = [].
Proof.
  intro H. cbn [get_option_tuples]. destruct (N.eqb_spec c 45) as [-> |Hc]; [exfalso; apply H; left; reflexivity|].
  assert (G : forall l, incl l option_strings -> flat_map (fun oa => if str_eqb (fst oa) [45%N; c] then [OptionTuple (Some (snd oa)) (fst oa) [] (Some r)]
     else if is_prefix (45%N :: c :: r) (fst oa) then [OptionTuple (Some (snd oa)) (fst oa) [] None] else []) l = []).
  { induction l as [|[s a] l IH]; intro Hl; cbn [flat_map]; [reflexivity|]. rewrite IH by (intros x Hx; apply Hl; right; exact Hx).
    destruct (option_second s a (Hl _ (or_introl eq_refl))) as (d&q&Es&Hd). cbn [fst snd]. rewrite Es.
    assert (Hne : c <> d) by congruence.
    rewrite (proj2 (str_eqb_neq _ _)) by congruence. cbn [is_prefix]. rewrite (proj2 (N.eqb_neq c d) Hne). reflexivity. }
  apply G. intros x Hx. exact Hx.
Qed.
Lemma partition_second c r b e : partition_eq (45%N :: c :: r) = (b, Some e) -> b = [45%N] \/ exists q, b = 45%N :: c :: q.
Proof.
  unfold partition_eq. cbn [split_once]. change (45 =? 61)%N with false. cbv iota.
  destruct (N.eqb c 61); [intro H; injection H as <- <-; left; reflexivity|]. destruct (split_once 61 r) as [[x y]|]; intro H; [|discriminate H].
  injection H as <- <-. right. eexists. reflexivity.
Qed.
Lemma other_letter c r : ~ In c letters -> let s := 45%N :: c :: r in
  parse_optional s = if negative_number s then inl None else if existsb (N.eqb 32) s then inl None else inl (Some (OptionTuple None s [] None)).
Proof.
  intros H s. unfold s, parse_optional. rewrite (no_tuples c r H). change (negb (45 =? 45)%N) with false. cbv iota.
  match goal with |- context [dget ?k option_strings] => assert (E0 : dget k option_strings = None) by (apply not_option, H); rewrite E0 end.
  destruct (partition_eq (45%N :: c :: r)) as [b [e|]] eqn:E; [|reflexivity].
  assert (G : dget b option_strings = None) by (destruct (partition_second _ _ _ _ E) as [-> | (q & ->)]; [reflexivity | apply not_option, H]).
  rewrite G. reflexivity.
Qed.

Lemma digit_letter c : ascii_digit c = true -> ~ In c letters.
Proof.
  intros H Hin. unfold letters in Hin. cbn [In] in Hin. repeat (destruct Hin as [<-|Hin]; [discriminate H|]). destruct Hin.
Qed.
Lemma split_none c s : ~ In c s -> split_once c s = None.
Proof.
  induction s as [|x s IH]; intro H; cbn [split_once]; [reflexivity|]. rewrite (proj2 (N.eqb_neq x c)) by (intros ->; apply H; left; reflexivity).
  rewrite IH by (intro; apply H; right; assumption). reflexivity.
Qed.
Lemma negative_digits ds : ds <> [] -> forallb ascii_digit ds = true -> negative_number (45%N :: ds) = true.
Proof.
  intros Hne H. cbn [negative_number]. change (45 =? 45)%N with true. cbn [andb].
  assert (G : forall c, In c ds -> c <> 10%N /\ c <> 46%N).
  { intros c Hc. rewrite forallb_forall in H. specialize (H c Hc). split; intros ->; discriminate H. }
  assert (E : ends_newline ds = false).
  { unfold ends_newline. destruct (rev ds) as [|c r] eqn:E; [reflexivity|]. apply N.eqb_neq. apply G. apply in_rev. rewrite E. left. reflexivity. }
  rewrite E, split_none by (intro Hc; apply G in Hc; tauto). unfold all_digits. destruct ds; [congruence|]. apply ascii_digits_is, H.
Qed.
Lemma argument_read v : an_argument v -> parse_optional v = inl None /\ v <> u "--".
Proof.
  intros [H | [z ->]]; [apply plain_argument, H|].
  destruct z as [|p|p]; [split; [reflexivity|discriminate]| |].
  - apply plain_argument. intros (c&r&E). cbn [z2s] in E. pose proof (n2s_ascii (Z.to_N (Z.pos p))) as H. rewrite E in H. discriminate H.
  - cbn [z2s]. pose proof (n2s_ascii (N.pos p)) as H. pose proof (proj1 (n2s_numeral (N.pos p))) as Hne. destruct (n2s (N.pos p)) as [|c r] eqn:E; [congruence|].
    pose proof H as H'. cbn [forallb] in H'. apply andb_prop in H' as [Hc _]. split.
    + rewrite other_letter by (apply digit_letter, Hc). rewrite negative_digits by (congruence || exact H). reflexivity.
    + intro X. injection X as -> ->. discriminate Hc.
Qed.

(** The option a string stands for *)
Definition read_opt (s : str) : parsing (list action * last_option) := match parse_optional s with inl (Some t) => options_of t s | _ => inr UsageError end.
Lemma read_opt_ok s x : read_opt s = inl x -> exists t, parse_optional s = inl (Some t) /\ options_of t s = inl x.
Proof. unfold read_opt. destruct (parse_optional s) as [[t|]|]; intro H; try discriminate H. eauto. Qed.

Lemma read_apart s a v : read_opt s = inl ([], LNext a) -> s <> u "--" -> an_argument v -> reads_option a v [s; v].
Proof.
  intros H Hs Hv. destruct (read_opt_ok _ _ H) as (t&Ht&Ho). destruct (argument_read v Hv) as [Hp Hn]. exists [TOption t s; TArgument v]. split.
  - intro rest. cbn [app]. rewrite (classify_opt _ _ _ Ht Hs), (classify_arg _ _ Hp Hn), then_then. apply then_ext. reflexivity.
  - intros r g ns ex. cbn [app consume]. destruct (close_group g ns ex) as [ns' ex']. rewrite Ho. reflexivity.
Qed.
Lemma read_joined s a v : read_opt s = inl ([], LValue a v) -> s <> u "--" -> reads_option a v [s].
Proof.
  intros H Hs. destruct (read_opt_ok _ _ H) as (t&Ht&Ho). exists [TOption t s]. split.
  - intro rest. cbn [app]. rewrite (classify_opt _ _ _ Ht Hs). reflexivity.
  - intros r g ns ex. cbn [app consume]. destruct (close_group g ns ex) as [ns' ex']. rewrite Ho. reflexivity.
Qed.
Lemma read_flag s a : read_opt s = inl ([a], LFlag) -> s <> u "--" -> reads_option a [] [s].
Proof.
  intros H Hs. destruct (read_opt_ok _ _ H) as (t&Ht&Ho). exists [TOption t s]. split.
  - intro rest. cbn [app]. rewrite (classify_opt _ _ _ Ht Hs). reflexivity.
  - intros r g ns ex. cbn [app consume]. destruct (close_group g ns ex) as [ns' ex']. rewrite Ho. cbn [then_ snd fst take_flags].
    destruct (take_option a [] ns'); reflexivity.
Qed.

Lemma abbreviations p long : abbreviates p long -> In p (map (fun k => firstn k long) (seq 3 (length long - 2))).
Proof.
  intros (H&rest&->). apply in_map_iff. exists (length p). split; [rewrite firstn_app, Nat.sub_diag, firstn_all; cbn; apply app_nil_r|].
  apply in_seq. rewrite app_length. lia.
Qed.
(** what is shown for each of the four options with a value *)
Definition value_option (short long : str) (a : action) : Prop :=
  read_opt short = inl ([], LNext a) /\ short <> u "--"
  /\ (forall v, v <> [] -> hd 0%N v <> 61%N -> read_opt (short ++ v) = inl ([], LValue a v) /\ short ++ v <> u "--")
  /\ (forall v, read_opt (short ++ u "=" ++ v) = inl ([], LValue a v) /\ short ++ u "=" ++ v <> u "--")
  /\ (forall p, abbreviates p long -> read_opt p = inl ([], LNext a) /\ p <> u "--" /\ forall v, read_opt (p ++ u "=" ++ v) = inl ([], LValue a v) /\ p ++ u "=" ++ v <> u "--").
Lemma long_not_option x c v : x <> 45%N -> dget (45%N :: x :: c :: v) option_strings = None.
Proof.
  intro H. apply dget_None. unfold option_strings. cbn [dkeys map fst In]. intro Hin.
  repeat (destruct Hin as [Hin|Hin]; [injection Hin as; congruence || discriminate Hin|]). destruct Hin.
Qed.
Lemma attached_read x a c v : In (x, a) [(102, AFrom); (116, ATo); (109, AModifier); (119, AWidth)]%N -> c <> 61%N ->
  read_opt (45%N :: x :: c :: v) = inl ([], LValue a (c :: v)).
Proof.
  intros Hx Hc.
  assert (Hd : x <> 45%N /\ x <> 61%N) by (cbn [In] in Hx; repeat (destruct Hx as [Hx|Hx]; [injection Hx as <- <-; split; discriminate|]); destruct Hx).
  unfold read_opt, parse_optional.
  match goal with |- context [dget ?k option_strings] => assert (E0 : dget k option_strings = None) by (apply long_not_option, Hd); rewrite E0 end.
  change (negb (45 =? 45)%N) with false. cbv iota.
  assert (E1 : exists b e, partition_eq (45%N :: x :: c :: v) = (b, e) /\ (e <> None -> dget b option_strings = None)).
  { unfold partition_eq. cbn [split_once]. change (45 =? 61)%N with false. rewrite (proj2 (N.eqb_neq x 61)), (proj2 (N.eqb_neq c 61)) by tauto.
    destruct (split_once 61 v) as [[y z]|]; eexists _, _; (split; [reflexivity|]); [intros _; apply long_not_option, Hd | congruence]. }
  destruct E1 as (b&e&E1&E2). rewrite E1.
  assert (E3 : match get_option_tuples (45%N :: x :: c :: v) with [t] => options_of t (45%N :: x :: c :: v) = inl ([], LValue a (c :: v)) | _ => False end).
  { cbn [In] in Hx; repeat (destruct Hx as [Hx|Hx]; [injection Hx as <- <-; reflexivity|]); destruct Hx. }
  destruct e as [e|]; [rewrite (E2 ltac:(discriminate))|]; destruct (get_option_tuples (45%N :: x :: c :: v)) as [|t [|t' ts]]; tauto.
Qed.
Local Ltac show_option :=
  split; [reflexivity|]; split; [discriminate|]; split;
  [ let Hc := fresh in intros [|? ?] ? Hc; [congruence|]; split; [|discriminate]; refine (attached_read _ _ _ _ _ Hc); cbn; tauto |];
  split; [intros [|? ?]; (split; [reflexivity | discriminate]) |];
  let p := fresh "p" in let Hp := fresh "Hp" in intros p Hp; apply abbreviations in Hp; cbn in Hp;
  repeat (destruct Hp as [<-|Hp]; [split; [reflexivity|]; split; [discriminate|]; intros [|? ?]; (split; [reflexivity | discriminate])|]); destruct Hp.
Lemma from_option : value_option (u "-f") (u "--fromfmt") AFrom.
Proof. show_option. Qed.
Lemma to_option : value_option (u "-t") (u "--to") ATo.
Proof. show_option. Qed.
Lemma modifier_option : value_option (u "-m") (u "--modifier") AModifier.
Proof. show_option. Qed.
Lemma width_option : value_option (u "-w") (u "--width") AWidth.
Proof. show_option. Qed.
Lemma value_read short long a v t : value_option short long a -> with_value short long v t -> reads_option a v t.
Proof.
  intros (H1&H2&H3&H4&H5) [Hv|Hv Hh| |p Hp Hv|p Hp].
  - apply read_apart; assumption.
  - destruct (H3 v Hv Hh). apply read_joined; assumption.
  - destruct (H4 v). apply read_joined; assumption.
  - destruct (H5 p Hp) as (E1&E2&_). apply read_apart; assumption.
  - destruct (H5 p Hp) as (_&_&E). destruct (E v). apply read_joined; assumption.
Qed.
Local Ltac show_flag H := apply abbreviations in H; cbn in H; repeat (destruct H as [<-|H]; [apply read_flag; [reflexivity|discriminate]|]); destruct H.
Lemma written_read x t : written x t -> reads_option (act x) (val x) t.
Proof.
  intros [v l H|v l H|v l H|z l H| |p H|p H|p H]; cbn [act val].
  - exact (value_read _ _ _ _ _ from_option H).
  - exact (value_read _ _ _ _ _ to_option H).
  - exact (value_read _ _ _ _ _ modifier_option H).
  - exact (value_read _ _ _ _ _ width_option H).
  - apply read_flag; [reflexivity|discriminate].
  - show_flag H.
  - show_flag H.
  - show_flag H.
Qed.

(** ** Reading many *)
Fixpoint take_all (l : list setting) (ns : namespace) : parsing namespace :=
  match l with
  | [] => inl ns
  | x :: r => then_ (take_option (act x) (val x) ns) (take_all r)
  end.
Lemma close_nil ns ex : close_group [] ns ex = (ns, ex).
Proof. unfold close_group. destruct (ns_files ns); cbn; rewrite app_nil_r; reflexivity. Qed.
Lemma options_read xs ts : Forall2 written xs ts ->
  exists toks, (forall rest, classify (concat ts ++ rest) = then_ (classify rest) (fun l => inl (toks ++ l)))
    /\ (forall r ns ex, consume (toks ++ r) [] ns ex = then_ (take_all xs ns) (fun ns => consume r [] ns ex))
    /\ (forall r g ns ex, xs <> [] -> consume (toks ++ r) g ns ex = let (ns, ex) := close_group g ns ex in then_ (take_all xs ns) (fun ns => consume r [] ns ex)).
Proof.
  induction 1 as [|x t xs ts Hx _ IH].
  - exists []. split; [|split].
    + intro rest. cbn. destruct (classify rest); reflexivity.
    + reflexivity.
    + intros r g ns ex Hn. congruence.
  - destruct IH as (toks&H1&H2&_). destruct (written_read x t Hx) as (tk&G1&G2). exists (tk ++ toks).
    assert (K : forall r g ns ex, consume ((tk ++ toks) ++ r) g ns ex = let (ns, ex) := close_group g ns ex in then_ (take_all (x :: xs) ns) (fun ns => consume r [] ns ex)).
    { intros r g ns ex. rewrite <- app_assoc, G2. destruct (close_group g ns ex) as [ns' ex']. cbn [take_all]. rewrite then_then. apply then_ext. intro a. apply H2. }
    split; [|split].
    + intro rest. cbn [concat]. rewrite <- app_assoc, G1, H1, then_then. apply then_ext. intro l. cbn [then_]. rewrite app_assoc. reflexivity.
    + intros r ns ex. rewrite K, close_nil. reflexivity.
    + intros r g ns ex _. apply K.
Qed.
Lemma then_id {A} (x : parsing A) : then_ x inl = x.
Proof. destruct x; reflexivity. Qed.
(** At the end of the command line *)
Lemma options_end xs ts : Forall2 written xs ts ->
  exists toks, classify (concat ts) = inl toks
    /\ forall g ns ex, consume toks g ns ex = let (ns, ex) := close_group g ns ex in then_ (take_all xs ns) (fun ns => inl (ns, ex)).
Proof.
  intro H. destruct (options_read xs ts H) as (toks&H1&H2&H3). exists toks. specialize (H1 []). rewrite app_nil_r in H1. cbn in H1. rewrite app_nil_r in H1.
  split; [exact H1|]. intros g ns ex. destruct xs as [|x xs].
  - inversion H. subst. cbn in H1. injection H1 as <-. cbn [take_all then_ consume]. destruct (close_group g ns ex); reflexivity.
  - specialize (H3 [] g ns ex ltac:(discriminate)). rewrite app_nil_r in H3. rewrite H3. destruct (close_group g ns ex) as [ns' ex']. apply then_ext. intro a. cbn [consume].
    rewrite close_nil. reflexivity.
Qed.

Lemma files_read fs rest : Forall an_argument fs -> classify (fs ++ rest) = then_ (classify rest) (fun l => inl (map TArgument fs ++ l)).
Proof.
  induction 1 as [|f fs Hf _ IH]; cbn [app map]; [cbn; destruct (classify rest); reflexivity|].
  destruct (argument_read f Hf) as [Hp Hn]. rewrite (classify_arg _ _ Hp Hn), IH, then_then. apply then_ext. reflexivity.
Qed.
Lemma files_consumed fs : forall r g ns ex, consume (map TArgument fs ++ r) g ns ex = consume r (g ++ map TArgument fs) ns ex.
Proof.
  induction fs as [|f fs IH]; intros r g ns ex; cbn [map app]; [rewrite app_nil_r; reflexivity|]. cbn [consume]. rewrite IH. rewrite <- app_assoc. reflexivity.
Qed.
Lemma group_strs fs : map token_str (filter is_argument (map TArgument fs)) = fs.
Proof. induction fs as [|f fs IH]; cbn; [reflexivity|]. rewrite IH. reflexivity. Qed.
Lemma group_strs' fs : map token_str (map TArgument fs) = fs.
Proof. induction fs as [|f fs IH]; cbn; [reflexivity|]. rewrite IH. reflexivity. Qed.
Lemma close_files fs ns ex : fs <> [] -> ns_files ns = None -> close_group (map TArgument fs) ns ex = (with_files fs ns, ex).
Proof. intros Hn H. unfold close_group. rewrite H, group_strs. destruct fs; [congruence|]. reflexivity. Qed.
Lemma close_files_dashes fs fs' ns ex : fs ++ fs' <> [] -> ns_files ns = None ->
  close_group (map TArgument fs ++ [TDashes] ++ map TArgument fs') ns ex = (with_files (fs ++ fs') ns, ex).
Proof.
  intros Hn H. unfold close_group. rewrite H, !filter_app, !map_app, !group_strs. cbn [filter is_argument map app].
  rewrite !existsb_app. destruct fs; [destruct fs'; [destruct (Hn eq_refl)|]|]; reflexivity.
Qed.

(** ** What they ask for *)
Definition named (l : list setting) (ns : namespace) : namespace :=
  Namespace (ns_files ns) (ns_debug ns || has_debug l) (last (map Some (froms l)) (ns_from ns)) (last (tos l) (ns_to ns))
    (match mods l with [] => ns_modifier ns | ms => Some (match ns_modifier ns with Some l0 => l0 | None => [] end ++ ms) end)
    (last (widths l) (ns_width ns)) (ns_cleanws ns || has_cleanws l) (ns_add_scores ns || has_add_scores l).
Lemma last_more {A} (l : list A) : forall a d, last (a :: l) d = last l a.
Proof. induction l as [|b l IH]; intros a d; [reflexivity|]. change (last (a :: b :: l) d) with (last (b :: l) d). rewrite IH. symmetry. apply IH. Qed.
Lemma take_all_valid l : forall ns, Forall valid l -> take_all l ns = inl (named l ns).
Proof.
  induction l as [|x l IH]; intros [fi de fr to mo wi cl sc] H.
  - unfold named, has_debug, has_cleanws, has_add_scores. cbn. rewrite !orb_false_r. reflexivity.
  - inversion H as [|? ? Hx Hl]. subst. cbn [take_all].
    destruct x as [v|v|v|z| | |]; cbn [act val take_option valid] in *;
      try rewrite (proj2 (memb_In _ _) Hx); try rewrite py_int_z2s; cbn [then_]; rewrite IH by exact Hl; unfold named; cbn [ns_files ns_debug ns_from ns_to ns_modifier ns_width ns_cleanws ns_add_scores];
      unfold froms, tos, mods, widths, has_debug, has_cleanws, has_add_scores; cbn [flat_map app map existsb orb];
      rewrite ?last_more, ?orb_true_r, ?orb_true_l; try reflexivity.
    do 2 f_equal. destruct mo as [l0|]; destruct (flat_map _ l); cbn [app]; rewrite <- ?app_assoc; reflexivity.
Qed.
Lemma take_all_invalid l : forall ns, Exists (fun x => ~ valid x) l -> take_all l ns = inr UsageError.
Proof.
  induction l as [|x l IH]; intros ns H; [inversion H|]. cbn [take_all].
  assert (D : {valid x} + {~ valid x}).
  { destruct x; cbn [valid]; try (left; exact I); match goal with |- {In ?v ?l} + {_} => destruct (memb v l) eqn:E; [left; apply memb_In, E | right; intro X; apply memb_In in X; congruence] end. }
  destruct D as [D|D].
  - assert (E : exists ns', take_option (act x) (val x) ns = inl ns').
    { pose proof (take_all_valid [x] ns (Forall_cons x D (Forall_nil _))) as E. cbn [take_all] in E. rewrite then_id in E. eauto. }
    destruct E as (ns'&->). cbn [then_]. apply IH. inversion H as [? ? X|? ? X]; [contradiction|exact X].
  - assert (E : take_option (act x) (val x) ns = inr UsageError).
    { destruct ns. destruct x as [v|v|v|z| | |]; cbn [valid] in D; try (exfalso; exact (D I)); cbn [act val take_option];
      match goal with |- context [memb ?v ?l] => destruct (memb v l) eqn:E; [apply memb_In in E; contradiction|reflexivity] end. }
    rewrite E. reflexivity.
Qed.

(** ** The theorems *)
Lemma named_files l ns : ns_files (named l ns) = ns_files ns.
Proof. reflexivity. Qed.
Lemma take_all_app l l' ns : take_all (l ++ l') ns = then_ (take_all l ns) (take_all l').
Proof. revert ns. induction l as [|x l IH]; intro ns; cbn [app take_all]; [reflexivity|]. rewrite then_then. apply then_ext. exact IH. Qed.
Lemma take_option_files fs a v ns : take_option a v (with_files fs ns) = then_ (take_option a v ns) (fun ns => inl (with_files fs ns)).
Proof.
  destruct ns. destruct a; cbn [take_option with_files]; try reflexivity;
    try (match goal with |- context [memb ?v ?l] => destruct (memb v l); reflexivity end). destruct (py_int v); reflexivity.
Qed.
Lemma take_all_files fs l : forall ns, take_all l (with_files fs ns) = then_ (take_all l ns) (fun ns => inl (with_files fs ns)).
Proof.
  induction l as [|x l IH]; intro ns; cbn [take_all]; [reflexivity|]. rewrite take_option_files, !then_then. apply then_ext. intro a. cbn [then_]. apply IH.
Qed.
Lemma take_all_kept l ns ns' : take_all l ns = inl ns' -> ns_files ns' = ns_files ns.
Proof.
  intro H. destruct (Forall_Exists_dec valid (fun x => match x with
    | From v => in_dec (list_eq_dec N.eq_dec) v validinfmts | To v => in_dec (list_eq_dec N.eq_dec) v validoutfmts | Modifier v => in_dec (list_eq_dec N.eq_dec) v validmod
    | _ => left I end) l) as [D|D].
  - rewrite (take_all_valid l ns D) in H. injection H as <-. reflexivity.
  - rewrite take_all_invalid in H; [discriminate H|]. exact D.
Qed.
Lemma finish_named fs l : (let ns := with_files fs (named l defaults) in
   Args fs (ns_from ns) (ns_to ns) (ns_modifier ns) (ns_width ns) (ns_cleanws ns) (ns_add_scores ns), ns_debug (with_files fs (named l defaults))) = requested fs l.
Proof. unfold requested, named, with_files, defaults. cbn. destruct (mods l); reflexivity. Qed.

(** Options around one group of files, which may have a -- in front of or between them *)
Lemma around before tb after ta group fs toks :
  Forall2 written before tb -> Forall2 written after ta ->
  (forall rest, classify (group ++ rest) = then_ (classify rest) (fun l => inl (toks ++ l))) ->
  (forall r g ns ex, consume (toks ++ r) g ns ex = consume r (g ++ toks) ns ex) ->
  (forall ns ex, ns_files ns = None -> close_group toks ns ex = (with_files fs ns, ex)) ->
  parse_args (concat tb ++ group ++ concat ta) = then_ (take_all (before ++ after) defaults) (fun ns =>
    let ns := with_files fs ns in inl (Args fs (ns_from ns) (ns_to ns) (ns_modifier ns) (ns_width ns) (ns_cleanws ns) (ns_add_scores ns), ns_debug ns)).
Proof.
  intros Hb Ha Hg Hc Hf. destruct (options_read before tb Hb) as (tk&B1&B2&_). destruct (options_end after ta Ha) as (tk'&A1&A2).
  unfold parse_args. rewrite B1, Hg, A1. cbn [then_]. rewrite B2, take_all_app, !then_then.
  destruct (take_all before defaults) as [ns|] eqn:E; cbn [then_]; [|reflexivity].
  rewrite Hc. cbn [app]. rewrite A2, Hf by (rewrite (take_all_kept _ _ _ E); reflexivity). rewrite take_all_files, !then_then.
  apply then_ext. intros [fi de fr to mo wi cl sc]. reflexivity.
Qed.

(** However the options are written, and whether they stand before or after the files, the program runs with what they ask for. *)
Theorem C91_standard : forall before tb files after ta,
  Forall2 written before tb -> Forall2 written after ta -> files <> [] -> Forall an_argument files -> Forall valid (before ++ after) ->
  parse_args (concat tb ++ files ++ concat ta) = inl (requested files (before ++ after)).
Proof.
  intros before tb files after ta Hb Ha Hn Hf Hv.
  rewrite (around before tb after ta files files (map TArgument files) Hb Ha).
  - rewrite take_all_valid by exact Hv. cbn [then_]. apply (f_equal inl). exact (finish_named files (before ++ after)).
  - intro rest. apply files_read, Hf.
  - apply files_consumed.
  - intros ns ex. apply close_files, Hn.
Qed.
Print Assumptions C91_standard.
(** After a -- everything is a file. *)
Theorem C91_dashes : forall before tb files more,
  Forall2 written before tb -> Forall an_argument files -> files ++ more <> [] -> Forall valid before ->
  parse_args (concat tb ++ files ++ u "--" :: more) = inl (requested (files ++ more) before).
Proof.
  intros before tb files more Hb Hf Hn Hv.
  destruct (options_read before tb Hb) as (tk&B1&B2&_). unfold parse_args. rewrite B1, files_read by exact Hf.
  assert (E : classify (u "--" :: more) = inl (TDashes :: map TArgument more)) by reflexivity. rewrite E. cbn [then_]. rewrite B2, take_all_valid by exact Hv. cbn [then_].
  rewrite files_consumed. cbn [app consume]. pose proof (files_consumed more [] (map TArgument files ++ [TDashes]) (named before defaults) []) as E1. rewrite app_nil_r in E1. rewrite E1.
  cbn [consume]. rewrite <- app_assoc. rewrite close_files_dashes by (reflexivity || exact Hn). cbn [then_]. apply (f_equal inl). exact (finish_named (files ++ more) before).
Qed.
Print Assumptions C91_dashes.
(** A format or modifier that is not in the lists stops the program. *)
Theorem C91_bad_choice : forall before tb files after ta,
  Forall2 written before tb -> Forall2 written after ta -> Forall an_argument files -> Exists (fun x => ~ valid x) (before ++ after) ->
  parse_args (concat tb ++ files ++ concat ta) = inr UsageError.
Proof.
  intros before tb files after ta Hb Ha Hf Hv. destruct files as [|f files].
  - cbn [app]. rewrite <- concat_app. assert (H : Forall2 written (before ++ after) (tb ++ ta)) by (apply Forall2_app; assumption).
    destruct (options_end _ _ H) as (tk&E1&E2). unfold parse_args. rewrite E1. cbn [then_]. rewrite E2, close_nil, take_all_invalid by exact Hv. reflexivity.
  - rewrite (around before tb after ta (f :: files) (f :: files) (map TArgument (f :: files)) Hb Ha).
    + rewrite take_all_invalid by exact Hv. reflexivity.
    + intro rest. apply files_read, Hf.
    + apply files_consumed.
    + intros ns ex. apply close_files. discriminate.
Qed.
Print Assumptions C91_bad_choice.
(** Without a file, too. *)
Theorem C91_no_files : forall l ts, Forall2 written l ts -> parse_args (concat ts) = inr UsageError.
Proof.
  intros l ts H. destruct (options_end _ _ H) as (tk&E1&E2). unfold parse_args. rewrite E1. cbn [then_]. rewrite E2, close_nil.
  destruct (take_all l defaults) as [ns|e] eqn:E; cbn [then_].
  - rewrite (take_all_kept _ _ _ E). reflexivity.
  - destruct (Forall_Exists_dec valid (fun x => match x with
    | From v => in_dec (list_eq_dec N.eq_dec) v validinfmts | To v => in_dec (list_eq_dec N.eq_dec) v validoutfmts | Modifier v => in_dec (list_eq_dec N.eq_dec) v validmod
    | _ => left I end) l) as [D|D].
    + rewrite (take_all_valid l _ D) in E. discriminate E.
    + rewrite take_all_invalid in E by exact D. injection E as <-. reflexivity.
Qed.
Print Assumptions C91_no_files.
(** Files in two groups, with options between them, as well. *)
Theorem C91_two_groups : forall before tb files1 mid tm files2 after ta,
  Forall2 written before tb -> Forall2 written mid tm -> Forall2 written after ta -> mid <> [] ->
  files1 <> [] -> files2 <> [] -> Forall an_argument files1 -> Forall an_argument files2 ->
  parse_args (concat tb ++ files1 ++ concat tm ++ files2 ++ concat ta) = inr UsageError.
Proof.
  intros before tb files1 mid tm files2 after ta Hb Hm Ha Hmid Hn1 Hn2 Hf1 Hf2.
  destruct (options_read before tb Hb) as (tkb&B1&B2&_). destruct (options_read mid tm Hm) as (tkm&M1&_&M3). destruct (options_end after ta Ha) as (tka&A1&A2).
  unfold parse_args. rewrite B1, files_read, M1, files_read, A1 by assumption. cbn [then_]. rewrite B2.
  assert (U : forall l ns e, take_all l ns = inr e -> e = UsageError).
  { intros l ns e E. destruct (Forall_Exists_dec valid (fun x => match x with
    | From v => in_dec (list_eq_dec N.eq_dec) v validinfmts | To v => in_dec (list_eq_dec N.eq_dec) v validoutfmts | Modifier v => in_dec (list_eq_dec N.eq_dec) v validmod
    | _ => left I end) l) as [D|D].
    - rewrite (take_all_valid l _ D) in E. discriminate E.
    - rewrite take_all_invalid in E by exact D. injection E as <-. reflexivity. }
  destruct (take_all before defaults) as [ns|e] eqn:E; cbn [then_]; [|rewrite (U _ _ _ E); reflexivity].
  rewrite files_consumed. cbn [app]. rewrite M3 by exact Hmid. rewrite close_files by (exact Hn1 || (rewrite (take_all_kept _ _ _ E); reflexivity)).
  destruct (take_all mid (with_files files1 ns)) as [ns1|e] eqn:E1; cbn [then_]; [|rewrite (U _ _ _ E1); reflexivity].
  rewrite files_consumed. cbn [app]. rewrite A2. pose proof (take_all_kept _ _ _ E1) as K. assert (K' : ns_files ns1 = Some files1) by (rewrite K; destruct ns; reflexivity).
  unfold close_group. rewrite K', group_strs'. cbn [app].
  destruct (take_all after ns1) as [ns2|e] eqn:E2; cbn [then_]; [|rewrite (U _ _ _ E2); reflexivity].
  destruct files2; [congruence|]. destruct (ns_files ns2); reflexivity.
Qed.
Print Assumptions C91_two_groups.

(** *** Whatever is written *)
Lemma classify_strs argv : forall toks, classify argv = inl toks -> map token_str toks = argv.
Proof.
  induction argv as [|s r IH]; intros toks H; cbn [classify] in H; [injection H as <-; reflexivity|].
  destruct (str_eqb s (u "--")) eqn:E; [injection H as <-; cbn [map token_str]; rewrite group_strs'; apply str_eqb_eq in E; rewrite E; reflexivity|].
  destruct (parse_optional s) as [o|]; [|discriminate H]. cbn [then_] in H. destruct (classify r) as [l|]; [|discriminate H]. cbn [then_] in H. injection H as <-.
  cbn [map]. rewrite (IH l eq_refl). destruct o; reflexivity.
Qed.
Lemma consume_keeps (P : namespace -> Prop) (strs : list str) :
  (forall a v ns ns', P ns -> take_option a v ns = inl ns' -> P ns') ->
  (forall fs ns, fs <> [] -> incl fs strs -> P ns -> P (with_files fs ns)) ->
  forall n toks g ns ex ns' ex', (length toks <= n)%nat -> incl (map token_str (g ++ toks)) strs -> P ns -> consume toks g ns ex = inl (ns', ex') -> P ns'.
Proof.
  intros Hopt Hfiles.
  assert (Hflags : forall l ns ns', P ns -> take_flags l ns = inl ns' -> P ns').
  { induction l as [|a l IH]; intros ns ns' H E; cbn [take_flags] in E; [injection E as <-; exact H|]. destruct (take_option a [] ns) as [n1|] eqn:E1; [|discriminate E].
    cbn [then_] in E. exact (IH _ _ (Hopt _ _ _ _ H E1) E). }
  assert (Hclose : forall g ns ex, incl (map token_str g) strs -> P ns -> P (fst (close_group g ns ex))).
  { intros g ns ex Hi H. unfold close_group. destruct (ns_files ns); [exact H|]. destruct (existsb is_argument g) eqn:E; [|exact H]. apply Hfiles; [|..].
    - intro X. apply map_eq_nil in X. apply existsb_exists in E as (t&Ht&E). assert (Y : In t (filter is_argument g)) by (apply filter_In; auto). rewrite X in Y. destruct Y.
    - intros x Hx. apply Hi. apply in_map_iff in Hx as (t&<-&Ht). apply in_map. apply filter_In in Ht. tauto.
    - exact H. }
  induction n as [|n IH]; intros toks g ns ex ns' ex' Hn Hi H E.
  - destruct toks; [|cbn in Hn; lia]. cbn [consume] in E. injection E as E. rewrite app_nil_r in Hi. pose proof (Hclose g ns ex Hi H) as K. rewrite E in K. exact K.
  - destruct toks as [|t r]; [cbn [consume] in E; injection E as E; rewrite app_nil_r in Hi; pose proof (Hclose g ns ex Hi H) as K; rewrite E in K; exact K|].
    cbn [length] in Hn.
    assert (Hg : incl (map token_str g) strs) by (intros x Hx; apply Hi; rewrite map_app; apply in_or_app; left; exact Hx).
    assert (Hr : incl (map token_str r) strs) by (intros x Hx; apply Hi; rewrite map_app; apply in_or_app; right; right; exact Hx).
    destruct t as [o s|s|]; cbn [consume] in E.
    + pose proof (Hclose g ns ex Hg H) as K. destruct (close_group g ns ex) as [n1 ex1]. cbn [fst] in K. destruct (options_of o s) as [[fl lo]|]; [|discriminate E]. cbn [then_ fst snd] in E.
      destruct lo as [|a v|a|x].
      * destruct (take_flags fl n1) as [n2|] eqn:E2; [|discriminate E]. cbn [then_] in E. exact (IH r [] n2 _ _ _ ltac:(lia) Hr (Hflags _ _ _ K E2) E).
      * destruct (take_flags fl n1) as [n2|] eqn:E2; [|discriminate E]. cbn [then_] in E. destruct (take_option a v n2) as [n3|] eqn:E3; [|discriminate E]. cbn [then_] in E.
        exact (IH r [] n3 _ _ _ ltac:(lia) Hr (Hopt _ _ _ _ (Hflags _ _ _ K E2) E3) E).
      * destruct r as [|[|v|] r']; try discriminate E.
        destruct (take_flags fl n1) as [n2|] eqn:E2; [|discriminate E]. cbn [then_] in E. destruct (take_option a v n2) as [n3|] eqn:E3; [|discriminate E]. cbn [then_] in E.
        refine (IH r' [] n3 _ _ _ _ _ (Hopt _ _ _ _ (Hflags _ _ _ K E2) E3) E); [cbn [length] in Hn; lia|]. intros y Hy. apply Hr. right. exact Hy.
      * destruct (take_flags fl n1) as [n2|] eqn:E2; [|discriminate E]. cbn [then_] in E. exact (IH r [] n2 _ _ _ ltac:(lia) Hr (Hflags _ _ _ K E2) E).
    + refine (IH r _ _ _ _ _ ltac:(lia) _ H E). rewrite <- app_assoc. exact Hi.
    + refine (IH r _ _ _ _ _ ltac:(lia) _ H E). rewrite <- app_assoc. exact Hi.
Qed.
(** The arguments the program runs with are ones that the rest of this development takes for granted, and the files are words of the command line. *)
Theorem C91_accepted : forall argv a d, parse_args argv = inl (a, d) -> accepted a /\ incl (a_input_file a) argv.
Proof.
  intros argv a d H. unfold parse_args in H. destruct (classify argv) as [toks|] eqn:E; [|discriminate H]. cbn [then_] in H.
  destruct (consume toks [] defaults []) as [[ns ex]|] eqn:E1; [|discriminate H]. cbn [then_] in H.
  set (P := fun ns => (forall fs, ns_files ns = Some fs -> fs <> [] /\ incl fs argv) /\ (forall f, ns_from ns = Some f -> In f validinfmts) /\ In (ns_to ns) validoutfmts
                      /\ (forall ms, ns_modifier ns = Some ms -> incl ms validmod)).
  assert (K : P ns).
  { refine (consume_keeps P argv _ _ (length toks) toks [] defaults [] ns ex (Nat.le_refl _) _ _ E1).
    - intros o v [fi de fr to mo wi cl sc] n' (P1&P2&P3&P4) Eo. cbn [ns_files ns_from ns_to ns_modifier] in *.
      destruct o; cbn [take_option] in Eo; try discriminate Eo;
        try (match type of Eo with (if memb ?v ?l then _ else _) = _ => destruct (memb v l) eqn:Em; [apply memb_In in Em|discriminate Eo] end);
        try (destruct (py_int v); [|discriminate Eo]);
        injection Eo as <-; (split; [exact P1|]); (split; [|split]); cbn [ns_files ns_from ns_to ns_modifier]; try assumption.
      + intros f Ef. injection Ef as <-. exact Em.
      + intros ms Ef. injection Ef as <-. destruct mo as [l|]; [intros x Hx; apply in_app_or in Hx as [Hx|Hx]; [exact (P4 l eq_refl x Hx)|]|intros x Hx]; destruct Hx as [<-|[]]; exact Em.
    - intros fs [fi de fr to mo wi cl sc] Hn Hi (P1&P2&P3&P4). split; [|split; [|split]]; try assumption. intros fs' X. cbn in X. injection X as <-. split; assumption.
    - cbn [app]. rewrite (classify_strs _ _ E). intros x Hx. exact Hx.
    - split; [discriminate|]. split; [discriminate|]. split; [cbn; tauto|discriminate]. }
  destruct K as (P1&P2&P3&P4). destruct (ns_files ns) as [fs|] eqn:Ef; [|discriminate H]. destruct ex; [|discriminate H]. injection H as <- _.
  destruct (P1 fs eq_refl) as [Q1 Q2]. split; [|exact Q2]. repeat split; assumption.
Qed.
Print Assumptions C91_accepted.

(** An option that is none of the program's: another letter (and no number), or a name that no long option starts with; without spaces *)
Definition long_names : list str := map u ["--help"; "--debug"; "--fromfmt"; "--to"; "--modifier"; "--width"; "--cleanws"; "--add-scores"]%string.
Inductive unknown : str -> Prop :=
| unknown_letter c r : ~ In c letters -> is_digit c = false -> c <> 46%N -> ~ In 32%N (c :: r) -> unknown (45%N :: c :: r)
| unknown_name n v : n <> [] -> ~ In 61%N n -> ~ In 32%N (n ++ v) -> (v = [] \/ hd 0%N v = 61%N) ->
    (forall long rest, In long long_names -> long <> u "--" ++ n ++ rest) -> unknown (u "--" ++ n ++ v).

Lemma prefix_spec p s : is_prefix p s = true <-> exists r, s = p ++ r.
Proof.
  revert s. induction p as [|c p IH]; intro s; cbn [is_prefix]; [split; [exists s; reflexivity|reflexivity]|].
  destruct s as [|d s]; [split; [discriminate|intros (r&X); discriminate X]|].
  rewrite andb_true_iff, IH, N.eqb_eq. split; [intros (->&r&->); exists r; reflexivity|]. intros (r&X). injection X as -> ->. eauto.
Qed.
Lemma no_space s : ~ In 32%N s -> existsb (N.eqb 32) s = false.
Proof. intro H. destruct (existsb (N.eqb 32) s) eqn:E; [|reflexivity]. apply existsb_exists in E as (c&Hc&E). apply N.eqb_eq in E. subst c. contradiction. Qed.
Lemma option_long s a r : In (s, a) option_strings -> s = 45%N :: 45%N :: r -> In s long_names.
Proof.
  intros H E. unfold option_strings, long_names in *. cbn [In map] in *.
  repeat (destruct H as [H|H]; [injection H as <- <-; try discriminate E; tauto|]). destruct H.
Qed.
Lemma unknown_read s : unknown s -> parse_optional s = inl (Some (OptionTuple None s [] None)) /\ s <> u "--".
Proof.
  intros [c r Hc Hd Hp Hs|n v Hn He Hs Hv Hl].
  - assert (E : negative_number (45%N :: c :: r) = false).
    { cbn [negative_number]. change (45 =? 45)%N with true. cbn [andb]. destruct (ends_newline (c :: r)).
      - destruct r as [|d r].
        + reflexivity.
        + cbn [removelast]. set (q := removelast (d :: r)). change (match r with [] => [] | _ :: _ => d :: removelast r end) with q.
          cbn [split_once]. rewrite (proj2 (N.eqb_neq c 46) Hp). destruct (split_once 46 q) as [[x y]|]; cbn [all_digits forallb]; rewrite Hd; reflexivity.
      - cbn [split_once]. rewrite (proj2 (N.eqb_neq c 46) Hp). destruct (split_once 46 r) as [[x y]|]; cbn [all_digits forallb]; rewrite Hd; reflexivity. }
    split; [|intro X; injection X as -> ->; apply Hc; left; reflexivity].
    rewrite other_letter by exact Hc. rewrite E, no_space; [reflexivity|]. intros [X|X]; [discriminate X|contradiction].
  - destruct n as [|c n]; [congruence|]. split; [|discriminate].
    assert (Ek : forall q, ~ In (u "--" ++ (c :: n) ++ q) (dkeys option_strings)).
    { intros q Hin. apply in_map_iff in Hin as ([k a]&Ek&Hin). cbn [fst] in Ek. pose proof (option_long k a _ Hin Ek) as X. exact (Hl k q X Ek). }
    assert (Ed : forall q, dget (u "--" ++ (c :: n) ++ q) option_strings = None) by (intro q; apply dget_None, Ek).
    assert (Ep : fst (partition_eq (u "--" ++ (c :: n) ++ v)) = u "--" ++ (c :: n)).
    { unfold partition_eq. destruct Hv as [-> | Hv].
      - rewrite app_nil_r. rewrite split_none; [reflexivity|]. intros [X|[X|X]]; [discriminate X|discriminate X|contradiction].
      - destruct v as [|d v]; [discriminate Hv|]. cbn [hd] in Hv. subst d. change (u "--" ++ (c :: n) ++ 61%N :: v) with ((u "--" ++ (c :: n)) ++ 61%N :: v).
        rewrite split_once_app; [reflexivity|]. intros [X|[X|X]]; [discriminate X|discriminate X|contradiction]. }
    assert (Et : get_option_tuples (u "--" ++ (c :: n) ++ v) = []).
    { change (get_option_tuples (u "--" ++ (c :: n) ++ v)) with (let (prefix, explicit) := partition_eq (u "--" ++ (c :: n) ++ v) in
        flat_map (fun oa => if is_prefix prefix (fst oa) then [OptionTuple (Some (snd oa)) (fst oa) (u "=") explicit] else []) option_strings).
      destruct (partition_eq (u "--" ++ (c :: n) ++ v)) as [b e]. cbn [fst] in Ep. rewrite Ep.
      assert (G : forall l, incl l option_strings -> flat_map (fun oa : str * action => if is_prefix (u "--" ++ c :: n) (fst oa) then [OptionTuple (Some (snd oa)) (fst oa) (u "=") e] else []) l = []).
      { induction l as [|[k a] l IH]; intro Hi; cbn [flat_map]; [reflexivity|]. rewrite IH by (intros x Hx; apply Hi; right; exact Hx).
        cbn [fst]. destruct (is_prefix (u "--" ++ c :: n) k) eqn:E; [|reflexivity]. apply prefix_spec in E as (q&Eq). exfalso. apply (Ek q).
        apply in_map_iff. exists (k, a). split; [cbn [fst]; rewrite Eq, <- app_assoc; reflexivity|]. apply Hi. left. reflexivity. }
      apply G. intros x Hx. exact Hx. }
    unfold parse_optional. change (u "--" ++ (c :: n) ++ v) with (45%N :: 45%N :: c :: n ++ v) in *. change (negb (45 =? 45)%N) with false. cbv iota.
    pose proof (Ed v) as E0. cbn [app] in E0. change (u "--" ++ c :: n ++ v) with (45%N :: 45%N :: c :: n ++ v) in E0. rewrite E0, Et.
    pose proof (Ed []) as E1. rewrite app_nil_r in E1. destruct (partition_eq (45%N :: 45%N :: c :: n ++ v)) as [b e]. cbn [fst] in Ep. rewrite Ep, E1.
    assert (En : negative_number (45%N :: 45%N :: c :: n ++ v) = false).
    { cbn [negative_number]. change (45 =? 45)%N with true. cbn [andb]. destruct (ends_newline _).
      - set (q := removelast (c :: n ++ v)). change (removelast (45%N :: c :: n ++ v)) with (45%N :: q). cbn [split_once]. change (45 =? 46)%N with false. cbv iota.
        destruct (split_once 46 q) as [[x y]|]; reflexivity.
      - cbn [split_once]. change (45 =? 46)%N with false. cbv iota. destruct (if (c =? 46)%N then _ else _) as [[x y]|]; reflexivity. }
    assert (Es : existsb (N.eqb 32) (45%N :: 45%N :: c :: n ++ v) = false). { apply no_space. intros [X|[X|X]]; [discriminate X|discriminate X|]. apply Hs. exact X. }
    rewrite En, Es. destruct e; reflexivity.
Qed.
Lemma consume_extras : forall n toks g ns ex ns' ex', (length toks <= n)%nat -> consume toks g ns ex = inl (ns', ex') ->
  ex <> [] \/ (exists t s, In (TOption t s) toks /\ ot_action t = None) -> ex' <> [].
Proof.
  assert (Hclose : forall g ns ex, ex <> [] -> snd (close_group g ns ex) <> []).
  { intros g ns ex H. unfold close_group. destruct (ns_files ns); [|destruct (existsb is_argument g)]; cbn [snd]; try exact H; intro X; apply app_eq_nil in X; tauto. }
  induction n as [|n IH]; intros toks g ns ex ns' ex' Hn E H.
  - destruct toks; [|cbn in Hn; lia]. destruct H as [H|(t&s&[]&_)]. cbn [consume] in E. injection E as E. pose proof (Hclose g ns ex H) as K. rewrite E in K. exact K.
  - destruct toks as [|t r]; [destruct H as [H|(t&s&[]&_)]; cbn [consume] in E; injection E as E; pose proof (Hclose g ns ex H) as K; rewrite E in K; exact K|].
    cbn [length] in Hn. destruct t as [o s|s|]; cbn [consume] in E.
    + pose proof (Hclose g ns ex) as K. destruct (close_group g ns ex) as [n1 ex1]. cbn [snd] in K.
      destruct (options_of o s) as [[fl lo]|] eqn:Eo; [|discriminate E]. cbn [then_ fst snd] in E.
      assert (Ha : lo <> LUnknown s -> ot_action o <> None). { intros Hl X. unfold options_of in Eo. rewrite X in Eo. injection Eo as <- <-. congruence. }
      assert (Hcase : lo = LUnknown s \/ ex1 <> [] \/ exists t s0, In (TOption t s0) r /\ ot_action t = None).
      { destruct H as [H|(t&s0&[X|X]&Ht)]; [right; left; apply K, H| |right; right; eauto]. injection X as -> ->. left.
        unfold options_of in Eo. rewrite Ht in Eo. injection Eo as <- <-. reflexivity. }
      destruct lo as [|a v|a|x].
      * destruct Hcase as [X|Hcase]; [discriminate X|]. destruct (take_flags fl n1) as [n2|]; [|discriminate E]. exact (IH r [] n2 _ _ _ ltac:(lia) E Hcase).
      * destruct Hcase as [X|Hcase]; [discriminate X|]. destruct (take_flags fl n1) as [n2|]; [|discriminate E]. cbn [then_] in E. destruct (take_option a v n2) as [n3|]; [|discriminate E].
        exact (IH r [] n3 _ _ _ ltac:(lia) E Hcase).
      * destruct Hcase as [X|Hcase]; [discriminate X|]. destruct r as [|[|v|] r']; try discriminate E.
        destruct (take_flags fl n1) as [n2|]; [|discriminate E]. cbn [then_] in E. destruct (take_option a v n2) as [n3|]; [|discriminate E].
        refine (IH r' [] n3 _ _ _ _ E _); [cbn [length] in Hn; lia|]. destruct Hcase as [X|(t&s0&[X|X]&Ht)]; [left; exact X|discriminate X|right; eauto].
      * destruct (take_flags fl n1) as [n2|]; [|discriminate E]. refine (IH r [] n2 _ _ _ ltac:(lia) E _). left. intro X. apply app_eq_nil in X. destruct X as [_ X]. discriminate X.
    + refine (IH r _ _ _ _ _ ltac:(lia) E _). destruct H as [H|(t&s0&[X|X]&Ht)]; [left; exact H|discriminate X|right; eauto].
    + refine (IH r _ _ _ _ _ ltac:(lia) E _). destruct H as [H|(t&s0&[X|X]&Ht)]; [left; exact H|discriminate X|right; eauto].
Qed.
Lemma classify_unknown l1 s l2 toks : unknown s -> ~ In (u "--") l1 -> classify (l1 ++ s :: l2) = inl toks -> exists t, In (TOption t s) toks /\ ot_action t = None.
Proof.
  intros Hu. destruct (unknown_read s Hu) as [Hp Hn]. revert toks. induction l1 as [|x l1 IH]; intros toks Hd H; cbn [app] in H.
  - rewrite (classify_opt _ _ _ Hp Hn) in H. destruct (classify l2); [|discriminate H]. injection H as <-. eexists. split; [left; reflexivity|reflexivity].
  - cbn [classify] in H. destruct (str_eqb x (u "--")) eqn:E; [apply str_eqb_eq in E; exfalso; apply Hd; left; exact E|].
    destruct (parse_optional x) as [o|]; [|discriminate H]. cbn [then_] in H. destruct (classify (l1 ++ s :: l2)) as [l|]; [|discriminate H]. cbn [then_] in H. injection H as <-.
    destruct (IH l (fun X => Hd (or_intror X)) eq_refl) as (t&Ht&Ea). exists t. split; [right; exact Ht|exact Ea].
Qed.
(** With an option it does not know, the program does not run. *)
Theorem C91_unknown : forall l1 s l2 x, unknown s -> ~ In (u "--") l1 -> parse_args (l1 ++ s :: l2) <> inl x.
Proof.
  intros l1 s l2 x Hu Hd H. unfold parse_args in H. destruct (classify (l1 ++ s :: l2)) as [toks|] eqn:E; [|discriminate H]. cbn [then_] in H.
  destruct (classify_unknown _ _ _ _ Hu Hd E) as (t&Ht&Ea). destruct (consume toks [] defaults []) as [[ns ex]|] eqn:E1; [|discriminate H]. cbn [then_] in H.
  assert (K : ex <> []) by (refine (consume_extras (length toks) toks [] defaults [] ns ex (Nat.le_refl _) E1 _); right; eauto).
  destruct (ns_files ns); [|discriminate H]. destruct ex; [congruence|discriminate H].
Qed.
Print Assumptions C91_unknown.

(** *** Help *)
Definition ambiguous (s : str) : Prop := exists v, s = u "--=" ++ v.
Lemma short_one c r : c <> 45%N -> (length (get_option_tuples (45%N :: c :: r)) <= 1)%nat.
Proof.
  intro H. destruct (in_dec N.eq_dec c letters) as [Hin|Hin]; [|rewrite no_tuples by exact Hin; cbn; lia].
  unfold letters in Hin. cbn [In] in Hin. destruct Hin as [X|Hin]; [congruence|].
  repeat (destruct Hin as [<-|Hin]; [destruct r; cbn; lia|]). destruct Hin.
Qed.
Lemma partition_third c r : c <> 61%N -> exists q e, partition_eq (45%N :: 45%N :: c :: r) = (45%N :: 45%N :: c :: q, e).
Proof.
  intro H. unfold partition_eq. cbn [split_once]. change (45 =? 61)%N with false. rewrite (proj2 (N.eqb_neq c 61) H). cbv iota.
  destruct (split_once 61 r) as [[x y]|]; eauto.
Qed.
Lemma long_one c r : c <> 61%N -> (length (get_option_tuples (45%N :: 45%N :: c :: r)) <= 1)%nat.
Proof.
  intro H. destruct (partition_third c r H) as (q&e&E). unfold get_option_tuples. rewrite E. change (45 =? 45)%N with true. cbv iota.
  assert (D : In c (map (fun n => nth 2 n 0%N) long_names) \/ ~ In c (map (fun n => nth 2 n 0%N) long_names)) by (destruct (in_dec N.eq_dec c (map (fun n => nth 2 n 0%N) long_names)); tauto).
  destruct D as [D|D].
  - cbn in D. repeat (destruct D as [<-|D]; [cbn -[is_prefix]; cbn [is_prefix N.eqb Pos.eqb andb]; match goal with |- context [is_prefix q ?x] => destruct (is_prefix q x) end; cbn; lia|]). destruct D.
  - assert (G : forall l, incl l option_strings -> flat_map (fun oa : str * action => if is_prefix (45%N :: 45%N :: c :: q) (fst oa) then [OptionTuple (Some (snd oa)) (fst oa) (u "=") e] else []) l = []).
    { induction l as [|[k a] l IH]; intro Hi; cbn [flat_map]; [reflexivity|]. rewrite IH by (intros x Hx; apply Hi; right; exact Hx). cbn [fst].
      destruct (is_prefix (45%N :: 45%N :: c :: q) k) eqn:Ep; [|reflexivity]. apply prefix_spec in Ep as (z&Ez). exfalso. apply D.
      apply in_map_iff. exists k. split; [rewrite Ez; reflexivity|]. refine (option_long k a _ (Hi _ (or_introl eq_refl)) _). rewrite Ez. reflexivity. }
    rewrite G by (intros x Hx; exact Hx). cbn. lia.
Qed.
Lemma not_ambiguous s : s <> u "--" -> ~ ambiguous s -> exists o, parse_optional s = inl o.
Proof.
  intros Hs Ha. destruct s as [|c0 r]; [eexists; reflexivity|]. cbn [parse_optional]. destruct (N.eqb_spec c0 45) as [-> |H0]; [|eexists; reflexivity]. cbn [negb].
  destruct (dget (45%N :: r) option_strings); [eexists; reflexivity|]. destruct r as [|c r]; [eexists; reflexivity|].
  assert (L : (length (get_option_tuples (45%N :: c :: r)) <= 1)%nat).
  { destruct (N.eq_dec c 45) as [-> |Hc]; [|apply short_one, Hc]. destruct r as [|d r]; [destruct (Hs eq_refl)|]. apply long_one. intros ->. apply Ha. exists r. reflexivity. }
  destruct (partition_eq (45%N :: c :: r)) as [b e].
  assert (G : exists o, match get_option_tuples (45%N :: c :: r) with
    | [] => if negative_number (45%N :: c :: r) then inl None else if existsb (N.eqb 32) (45%N :: c :: r) then inl None else inl (Some (OptionTuple None (45%N :: c :: r) [] None))
    | [t] => inl (Some t) | _ :: _ :: _ => inr UsageError end = (inl o : parsing (option option_tuple))).
  { destruct (get_option_tuples (45%N :: c :: r)) as [|t [|t' ts]]; [|eexists; reflexivity|cbn in L; lia].
    destruct (negative_number _); [eexists; reflexivity|]. destruct (existsb _ _); eexists; reflexivity. }
  destruct e as [e|]; [destruct (dget b option_strings); [eexists; reflexivity|]|]; exact G.
Qed.
Lemma classify_some l : (forall s, In s l -> ~ ambiguous s) -> exists toks, classify l = inl toks.
Proof.
  induction l as [|s l IH]; intro H; [eexists; reflexivity|]. cbn [classify]. destruct (str_eqb s (u "--")) eqn:E; [eexists; reflexivity|].
  apply str_eqb_neq in E. destruct (not_ambiguous s E (H s (or_introl eq_refl))) as (o&->). destruct IH as (toks&->); [intros x Hx; apply H; right; exact Hx|]. eexists. reflexivity.
Qed.
(** -h, or --help or an abbreviation of it, shows the help, whatever comes after it; only a word that begins with --= comes first *)
Theorem C91_help : forall before tb files h rest,
  Forall2 written before tb -> Forall valid before -> Forall an_argument files -> h = u "-h" \/ abbreviates h (u "--help") -> (forall s, In s rest -> ~ ambiguous s) ->
  parse_args (concat tb ++ files ++ h :: rest) = inr HelpShown.
Proof.
  intros before tb files h rest Hb Hv Hf Hh Hr. destruct (options_read before tb Hb) as (tk&B1&B2&_). destruct (classify_some rest Hr) as (tr&Er).
  assert (Eh : reads_option AHelp [] [h]).
  { destruct Hh as [-> |Hh]; [apply read_flag; [reflexivity|discriminate]|]. show_flag Hh. }
  destruct Eh as (th&H1&H2). unfold parse_args. rewrite B1, files_read by exact Hf. specialize (H1 rest). cbn [app] in H1. rewrite H1, Er. cbn [then_].
  rewrite B2, take_all_valid by exact Hv. cbn [then_]. rewrite files_consumed, H2. destruct (close_group _ _ _) as [[fi de fr to mo wi cl sc] ex]. reflexivity.
Qed.
Print Assumptions C91_help.

(** *** The process *)
(** Status 2 means that nothing was read and nothing was printed on standard output; otherwise it is 0 or 1, and what is read are words of the command line. *)
Lemma reads_files_incl s l : forall t b r, incl (fst (read_files s l t b r)) (r ++ l).
Proof.
  induction l as [|f l IH]; intros t b r; cbn [read_files]; [cbn [fst]; rewrite app_nil_r; intros x Hx; exact Hx|].
  destruct (s_exists s f); [|cbn [fst]; intros x Hx; apply in_or_app; left; exact Hx].
  destruct (s_read s f).
  - intros x Hx. apply IH in Hx. rewrite <- app_assoc in Hx. exact Hx.
  - cbn [fst]. intros x Hx. apply in_app_or in Hx as [Hx|[<-|[]]]; apply in_or_app; [left; exact Hx|right; left; reflexivity].
Qed.
Lemma main_reads_incl s rn a : incl (o_reads (main s rn a)) (a_input_file a).
Proof.
  unfold main. destruct (input_format a) as [fmt|]; [|intros x []]. destruct (negb (memb fmt validinfmts)); [intros x []|].
  assert (H : incl (fst (read_input s a)) (a_input_file a)).
  { unfold read_input. destruct (a_input_file a) as [|f [|f' l]]; [intros x []| |].
    - destruct (str_eqb f dash) eqn:E; [apply str_eqb_eq in E; rewrite E; destruct (s_stdin s); cbn [fst]; intros x Hx; exact Hx|]. apply (reads_files_incl s [f] [] [] []).
    - apply (reads_files_incl s (f :: f' :: l) [] [] []). }
  destruct (read_input s a) as [reads rd]. cbn [fst] in H. destruct rd as [f|e|t bl]; [exact H|exact H|].
  destruct (load s a fmt t bl) as [m|e]; [|exact H]. destruct (render_as _ _ _ _ _ _ _); exact H.
Qed.
Theorem C91_status : forall s rn help argv, let p := abiftool s rn help argv in
  (p_status p = 2 /\ p_reads p = [] /\ p_stdout p = []) \/ ((p_status p = 0 \/ p_status p = 1) /\ incl (p_reads p) argv).
Proof.
  intros s rn help argv p. unfold p, abiftool. destruct (parse_args argv) as [[a d]|e] eqn:E.
  - right. cbn [p_status p_reads]. split; [destruct (o_ending (main s rn a)); cbn; auto|]. destruct (C91_accepted _ _ _ E) as [_ H].
    intros x Hx. apply H, (main_reads_incl s rn a), Hx.
  - destruct e; cbn; [left; auto|right]. split; [left; reflexivity|intros x []].
Qed.
Print Assumptions C91_status.
(** With a standard command line the process does what main does with the arguments asked for; -d adds a line after the output. *)
Theorem C91_run : forall s rn help before tb files after ta,
  Forall2 written before tb -> Forall2 written after ta -> files <> [] -> Forall an_argument files -> Forall valid (before ++ after) ->
  let p := abiftool s rn help (concat tb ++ files ++ concat ta) in
  let a := fst (requested files (before ++ after)) in let o := main s rn a in
  p_reads p = o_reads o /\ p_status p = exit_status (o_ending o)
  /\ p_stdout p = o_stdout o ++ (if has_debug (before ++ after) && finished a o then u "DEBUGARRAY=[]" ++ [10%N] else []).
Proof.
  intros s rn help before tb files after ta Hb Ha Hn Hf Hv p a o. unfold p, abiftool. rewrite (C91_standard before tb files after ta Hb Ha Hn Hf Hv). repeat split.
Qed.
Print Assumptions C91_run.

(** With -d, output that is JSON without it is not JSON any more. *)
Lemma loads_debug indent j : json_text_ok j = true -> nodup_keys j -> json_loads (dumps_at indent 0 j ++ [10%N] ++ u "DEBUGARRAY=[]" ++ [10%N]) = Err ValueError.
Proof.
  intros Ht Hk. unfold json_loads. destruct (dumps_at_first indent 0 j) as (c&t&E&Hc&_). set (rest := [10%N] ++ u "DEBUGARRAY=[]" ++ [10%N]).
  pose proof (loads_dumps indent j Ht Hk) as L.
  pose proof (scan_dumps indent j 0 (S (length (dumps_at indent 0 j ++ rest))) rest Ht Hk) as S1.
  pose proof (skip_ws_dumps indent 0 j rest) as S2. pose proof (depth_length indent j 0) as S3. rewrite app_length in S1.
  rewrite app_length. rewrite S2, S1 by (lia || (left; reflexivity)). cbn [bind snd fst]. change (skip_ws rest) with (u "DEBUGARRAY=[]" ++ [10%N]).
  destruct (dumps_at indent 0 j ++ rest) as [|a w]; [reflexivity|]. destruct a as [|p]; [reflexivity|]. repeat (destruct p as [p|p|]; try reflexivity).
Qed.
Theorem C91_debug_json_refuted : forall s rn help before tb files after ta J,
  Forall2 written before tb -> Forall2 written after ta -> files <> [] -> Forall an_argument files -> Forall valid (before ++ after) ->
  In Debug (before ++ after) -> json_text_ok J = true -> nodup_keys J ->
  let a := fst (requested files (before ++ after)) in
  finished a (main s rn a) = true -> o_stdout (main s rn a) = dumps_indent 4 J ++ [10%N] ->
  json_loads (p_stdout (abiftool s rn help (concat tb ++ files ++ concat ta))) = Err ValueError.
Proof.
  intros s rn help before tb files after ta J Hb Ha Hn Hf Hv Hd Ht Hk a Hfin Ho.
  destruct (C91_run s rn help before tb files after ta Hb Ha Hn Hf Hv) as (_&_&E). fold a in E. rewrite E, Hfin, Ho.
  assert (D : has_debug (before ++ after) = true) by (apply existsb_exists; exists Debug; split; [exact Hd|reflexivity]). rewrite D. cbn [andb].
  rewrite <- app_assoc. exact (loads_debug (Some 4%nat) J Ht Hk).
Qed.
Print Assumptions C91_debug_json_refuted.

(** ** Examples *)
Definition argv_home : surroundings := Surroundings (fun f => str_eqb f (u "x.abif")) (fun f => if str_eqb f (u "x.abif") then Ok (u "5:B>A=C") else Err OSError) (Ok (u "3:A>B")) (fun _ => []) (Oracle (fun _ => O) (fun _ l => l)).
Definition words (l : list string) : list str := map u l.
Definition argv_run (l : list string) : Z * str := let p := abiftool argv_home cli_render (u "help") (words l) in (p_status p, p_stdout p).
(** The hypotheses of C91_standard are met by  --from abif -t=json -mIRV x.abif --mod Copeland -w -5 --deb : *)
Example C91_written : 
  let before := [From (u "abif"); To (u "json"); Modifier (u "IRV")] in let after := [Modifier (u "Copeland"); Width (-5); Debug] in
  exists tb ta, Forall2 written before tb /\ Forall2 written after ta /\ Forall valid (before ++ after) /\ Forall an_argument [u "x.abif"; u "-"] /\
    concat tb ++ [u "x.abif"; u "-"] ++ concat ta = words ["--from"; "abif"; "-t=json"; "-mIRV"; "x.abif"; "-"; "--mod"; "Copeland"; "-w"; "-5"; "--deb"]%string /\
    requested [u "x.abif"; u "-"] (before ++ after) = (Args [u "x.abif"; u "-"] (Some (u "abif")) (u "json") (Some [u "IRV"; u "Copeland"]) (-5) false false, true).
Proof.
  cbv zeta. exists [words ["--from"; "abif"]%string; words ["-t=json"]%string; words ["-mIRV"]%string], [words ["--mod"; "Copeland"]%string; words ["-w"; "-5"]%string; words ["--deb"]%string].
  assert (Hab : forall p rest, (3 <= length p)%nat -> abbreviates p (p ++ rest)) by (intros p rest H; split; [exact H|eauto]).
  assert (Hpl : forall v, match v with 45%N :: _ :: _ => False | _ => True end -> an_argument v) by (intros v H; left; intros (c&r&->); exact H).
  split; [|split; [|split; [|split; [|split; reflexivity]]]].
  - apply Forall2_cons; [apply w_from|apply Forall2_cons; [apply w_to|apply Forall2_cons; [apply w_modifier|constructor]]].
    + apply (long_apart (u "-f") (u "--fromfmt") (u "abif") (u "--from")); [apply (Hab (u "--from") (u "fmt")); cbn; lia|apply Hpl; exact I].
    + apply (short_equals (u "-t") (u "--to") (u "json")).
    + apply (short_attached (u "-m") (u "--modifier") (u "IRV")); discriminate.
  - apply Forall2_cons; [apply w_modifier|apply Forall2_cons; [apply w_width|apply Forall2_cons; [|constructor]]].
    + apply (long_apart (u "-m") (u "--modifier") (u "Copeland") (u "--mod")); [apply (Hab (u "--mod") (u "ifier")); cbn; lia|apply Hpl; exact I].
    + apply (short_apart (u "-w") (u "--width") (z2s (-5))). right. exists (-5). reflexivity.
    + apply (w_debug (u "--deb")), (Hab (u "--deb") (u "ug")). cbn. lia.
  - repeat constructor; cbn; tauto.
  - apply Forall_cons; [apply Hpl; exact I|apply Forall_cons; [apply Hpl; exact I|constructor]].
Qed.
Example C91_nonvacuous :
  argv_run ["-t"; "nameq"; "x.abif"]%string = argv_run ["x.abif"; "--to=nameq"; "-f"; "abif"]%string /\
  argv_run ["-t"; "paircountjson"; "-t"; "nameq"; "-"; "-fabif"]%string = (0, concat (repeat (u "A=1&B=2" ++ [10%N]) 3) ++ [10%N]) /\
  argv_run ["-d"; "-t"; "nameq"; "-"; "-fabif"]%string = (0, concat (repeat (u "A=1&B=2" ++ [10%N]) 3) ++ [10%N] ++ u "DEBUGARRAY=[]" ++ [10%N]) /\
  argv_run ["x.abif"; "-d"; "y.abif"]%string = (2, []) /\ argv_run ["-t"; "jason"; "x.abif"]%string = (2, []) /\ argv_run ["-t"; "json"]%string = (2, []) /\
  argv_run ["x.abif"; "--frob=3"]%string = (2, []) /\ argv_run ["x.abif"; "-q"]%string = (2, []) /\ argv_run ["x.abif"; "--"; "-t"]%string = (0, u "The file '-t' doesn't exist." ++ [10%N]) /\
  argv_run ["x.abif"; "-h"; "--frob"]%string = (0, u "help") /\ argv_run ["-d"; "x.pdf"]%string = (0, u "Error: Unsupported input format 'pdf'" ++ [10%N]).
Proof. vm_compute. repeat split. Qed.
Example C91_unknown_nonvacuous : unknown (u "--frob=3") /\ unknown (u "-q") /\ ~ unknown (u "--deb") /\ ~ unknown (u "-5").
Proof.
  split; [|split; [|split]].
  - apply (unknown_name (u "frob") (u "=3")); [discriminate|cbn; intuition discriminate|cbn; intuition discriminate|right; reflexivity|].
    intros long rest H. unfold long_names in H. cbn [map In] in H. repeat (destruct H as [<-|H]; [discriminate|]). destruct H.
  - apply (unknown_letter 113%N []); [cbn; intuition discriminate|reflexivity|discriminate|cbn; intuition discriminate].
  - intro H. apply unknown_read in H as [H _]. vm_compute in H. discriminate H.
  - intro H. apply unknown_read in H as [H _]. vm_compute in H. discriminate H.
Qed.
Example C91_debug_nonvacuous :
  json_loads (snd (argv_run ["-t"; "paircountjson"; "x.abif"]%string)) <> Err ValueError /\ json_loads (snd (argv_run ["-t"; "paircountjson"; "x.abif"; "-d"]%string)) = Err ValueError.
Proof. split; [vm_compute; discriminate|vm_compute; reflexivity]. Qed.
