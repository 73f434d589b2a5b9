(** * ArgparseFacts: reading a command line with the parsers of ArgparseModel *)

From Coq Require Import Lia.
From Verif Require Import PyBase PyFacts Jabmod TextFacts CliModel ArgvModel ArgparseModel.
Local Open Scope Z_scope.

(** ** Specification *)
(** Option strings are -x or --xyz, without =, and all different. *)
Definition option_name (n : str) : Prop := (exists c, n = [45%N; c] /\ c <> 45%N /\ c <> 61%N) \/ (exists c r, n = 45%N :: 45%N :: c :: r /\ ~ In 61%N n).
Definition proper (sp : spec) : Prop := NoDup (map fst (sp_options sp)) /\ (forall n a, In (n, a) (sp_options sp) -> option_name n).
(** A word that looks like an option. *)
Definition looks_like_option (s : str) : Prop := exists c r, s = 45%N :: c :: r.
(** [n] stands for an option: its name, or the beginning of a long name and of no other one. *)
Definition stands_for (sp : spec) (n : str) (a : str * kind) : Prop :=
  In (n, a) (sp_options sp) \/
  exists c r rest, n = 45%N :: 45%N :: c :: r /\ In (n ++ rest, a) (sp_options sp) /\ forall rest' b, In (n ++ rest', b) (sp_options sp) -> rest' = rest.
(** The values an option accepts. *)
Definition accepts (choices : option (list str)) (v : str) : Prop := match choices with Some l => In v l | None => True end.
(** The ways to write an option: the flag; the option and its value as two words; with = between them; -oVALUE. *)
Inductive writes (sp : spec) (d : str) : value -> list str -> Prop :=
| a_flag n : stands_for sp n (d, KFlag) -> writes sp d VTrue [n]
| two_words n ch v : stands_for sp n (d, KValue ch) -> accepts ch v -> ~ looks_like_option v -> writes sp d (VStr v) [n; v]
| with_equals n ch v : stands_for sp n (d, KValue ch) -> accepts ch v -> v <> u "--" -> writes sp d (VStr v) [n ++ u "=" ++ v]
| attached c ch v : In ([45%N; c], (d, KValue ch)) (sp_options sp) -> accepts ch v -> v <> [] -> hd 0%N v <> 61%N -> v <> u "--" -> writes sp d (VStr v) [[45%N; c] ++ v].
(** A command line: options, and words that do not look like options. *)
Inductive item := Setting (d : str) (v : value) | Word (w : str).
Inductive lays (sp : spec) : list item -> list str -> Prop :=
| lays_nil : lays sp [] []
| lays_setting d v ws items argv : writes sp d v ws -> lays sp items argv -> lays sp (Setting d v :: items) (ws ++ argv)
| lays_word w items argv : ~ looks_like_option w -> lays sp items argv -> lays sp (Word w :: items) (w :: argv).
(** The words, in order, and the settings, in order. *)
Definition words_of (items : list item) : list str := flat_map (fun x => match x with Word w => [w] | _ => [] end) items.
Definition settings_of (items : list item) : list (str * value) := flat_map (fun x => match x with Setting d v => [(d, v)] | _ => [] end) items.
(** The value an option has in the end: the last one given. *)
Definition given (d : string) (items : list item) : option value := last (map (fun dv => Some (snd dv)) (filter (fun dv => str_eqb (fst dv) (u d)) (settings_of items))) None.

(** ** Words *)
Lemma andthen_andthen {A B C} (x : parse_of A) (f : A -> parse_of B) (g : B -> parse_of C) : andthen (andthen x f) g = andthen x (fun a => andthen (f a) g).
Proof. destruct x; reflexivity. Qed.
Lemma andthen_ext {A B} (x : parse_of A) (f g : A -> parse_of B) : (forall a, f a = g a) -> andthen x f = andthen x g.
Proof. intro H. destruct x; cbn; auto. Qed.
Lemma plain_word sp w : ~ looks_like_option w -> as_option sp w = inl None \/ dget w (sp_options sp) <> None.
Proof.
  intro H. destruct w as [|c [|c2 r]]; [left; reflexivity| |].
  - cbn [as_option]. destruct (N.eqb c 45) eqn:E; [|left; reflexivity]. cbn [negb]. destruct (dget [c] (sp_options sp)) eqn:Ed; [right; congruence|left; reflexivity].
  - cbn [as_option]. destruct (N.eqb_spec c 45) as [->|]; [|left; reflexivity]. exfalso. apply H. exists c2, r. reflexivity.
Qed.
Lemma name_dashed n : option_name n -> looks_like_option n.
Proof. intros [(c&->&_)|(c&r&->&_)]; eexists; eexists; reflexivity. Qed.
Lemma as_word sp w : proper sp -> ~ looks_like_option w -> as_option sp w = inl None.
Proof.
  intros (_&P) H. destruct (plain_word sp w H) as [E|E]; [exact E|]. exfalso. destruct (dget w (sp_options sp)) as [a|] eqn:Ed; [|congruence]. apply dget_In in Ed. exact (H (name_dashed w (P _ _ Ed))).
Qed.
Lemma letters_word sp w rest : proper sp -> ~ looks_like_option w -> letters_of sp (w :: rest) = andthen (letters_of sp rest) (fun l => inl (LA w :: l)).
Proof.
  intros P H. cbn [letters_of]. rewrite (proj2 (str_eqb_neq w (u "--"))), (as_word sp w P H); [reflexivity|]. intros ->. apply H. exists 45%N, []. reflexivity.
Qed.
Lemma letters_option sp n t rest : as_option sp n = inl (Some t) -> n <> u "--" -> letters_of sp (n :: rest) = andthen (letters_of sp rest) (fun l => inl (LO t n :: l)).
Proof. intros H Hn. cbn [letters_of]. rewrite (proj2 (str_eqb_neq n (u "--")) Hn), H. reflexivity. Qed.

(** ** Options *)
Lemma no_equals n : option_name n -> ~ In 61%N n.
Proof. intros [(c&->&N1&N2)|(c&r&_&N)]; [|exact N]. intros [E|[E|[]]]; congruence. Qed.
Lemma not_dashes n : option_name n -> n <> u "--".
Proof. intros [(c&->&N1&N2)|(c&r&->&_)] E; [injection E as E; congruence|discriminate E]. Qed.
Lemma dget_option sp n a : proper sp -> In (n, a) (sp_options sp) -> dget n (sp_options sp) = Some a.
Proof. intros (N&_) H. exact (dget_In_nodup _ _ _ N H). Qed.
Lemma dget_other sp n : (forall a, ~ In (n, a) (sp_options sp)) -> dget n (sp_options sp) = None.
Proof. intro H. destruct (dget n (sp_options sp)) as [a|] eqn:E; [|reflexivity]. apply dget_In in E. destruct (H a E). Qed.
Lemma split_none c s : ~ In c s -> split_once c s = None.
Proof.
  induction s as [|x s IH]; intro H; cbn [split_once]; [reflexivity|]. rewrite (proj2 (N.eqb_neq x c)) by (intros ->; apply H; left; reflexivity). rewrite IH by (intro X; apply H; right; exact X). reflexivity.
Qed.
Lemma partition_none n : ~ In 61%N n -> partition_eq n = (n, None).
Proof. intro H. unfold partition_eq. rewrite (split_none _ _ H). reflexivity. Qed.
Lemma partition_some n v : ~ In 61%N n -> partition_eq (n ++ u "=" ++ v) = (n, Some v).
Proof. intro H. unfold partition_eq. change (u "=" ++ v) with (61%N :: v). rewrite (split_once_app _ _ _ H). reflexivity. Qed.
Lemma is_prefix_spec p s : is_prefix p s = true <-> exists r, s = p ++ r.
Proof.
  revert s. induction p as [|c p IH]; intro s; cbn [is_prefix]; [split; [exists s; reflexivity|reflexivity]|]. destruct s as [|d s].
  - split; [discriminate|]. intros (r&E). discriminate E.
  - split.
    + intro H. apply andb_prop in H as (H1&H2). apply N.eqb_eq in H1. subst d. apply IH in H2 as (r&->). exists r. reflexivity.
    + intros (r&E). injection E as -> E. rewrite N.eqb_refl. apply IH. exists r. exact E.
Qed.
Lemma only_one {X Y} (p : X -> bool) (g : X -> Y) l x : NoDup l -> In x l -> p x = true -> (forall y, In y l -> p y = true -> y = x) -> flat_map (fun y => if p y then [g y] else []) l = [g x].
Proof.
  intros N. induction N as [|y l Hy N IH]; intros Hx Px U; [destruct Hx|]. cbn [flat_map]. destruct (p y) eqn:Ey.
  - assert (y = x) by (apply U; [left; reflexivity|exact Ey]). subst y. replace (flat_map _ l) with (@nil Y); [reflexivity|]. symmetry. clear IH N. assert (U' : forall z, In z l -> p z = false) by (intros z Hz; destruct (p z) eqn:Ez; [|reflexivity]; exfalso; apply Hy; rewrite <- (U z (or_intror Hz) Ez); exact Hz).
    clear -U'. induction l as [|z l IH]; [reflexivity|]. cbn [flat_map]. rewrite (U' z (or_introl eq_refl)). apply IH. intros w Hw. apply U'. right. exact Hw.
  - destruct Hx as [->|Hx]; [congruence|]. apply IH; [exact Hx|exact Px|]. intros z Hz. apply U. right. exact Hz.
Qed.
Lemma nodup_of_keys {A} (l : list (str * A)) : NoDup (map fst l) -> NoDup l.
Proof. intro H. apply (NoDup_map_inv fst). exact H. Qed.
(** An abbreviation, alone or with = and a value *)
Lemma abbreviation_tuples sp n c r rest a e s : proper sp -> n = 45%N :: 45%N :: c :: r -> partition_eq s = (n, e) -> (exists q, s = n ++ q) -> In (n ++ rest, a) (sp_options sp) ->
  (forall rest' b, In (n ++ rest', b) (sp_options sp) -> rest' = rest) -> option_tuples sp s = [Found (Some a) (n ++ rest) (u "=") e].
Proof.
  intros (N&P) En Ep (q&->) Hin U. assert (Es : exists q', n ++ q = 45%N :: 45%N :: q') by (rewrite En; eexists; reflexivity). destruct Es as (q'&Es). unfold option_tuples. rewrite Es. change (N.eqb 45 45) with true. cbv iota. rewrite <- Es, Ep.
  change [Found (Some a) (n ++ rest) (u "=") e] with [(fun oa : str * (str * kind) => Found (Some (snd oa)) (fst oa) (u "=") e) (n ++ rest, a)]. apply (only_one (fun oa : str * (str * kind) => is_prefix n (fst oa)) (fun oa : str * (str * kind) => Found (Some (snd oa)) (fst oa) (u "=") e)).
  - apply nodup_of_keys, N.
  - exact Hin.
  - apply is_prefix_spec. exists rest. reflexivity.
  - intros [m b] Hm Hp. apply is_prefix_spec in Hp as (r'&E). cbn [fst] in E. subst m. pose proof (U _ _ Hm) as ->. f_equal. pose proof (dget_In_nodup _ _ _ N Hm) as G1. pose proof (dget_In_nodup _ _ _ N Hin) as G2. congruence.
Qed.
Lemma abbreviation_parts sp n c r rest a : proper sp -> n = 45%N :: 45%N :: c :: r -> In (n ++ rest, a) (sp_options sp) -> ~ In 61%N n.
Proof. intros (_&P) -> H X. apply (no_equals _ (P _ _ H)). apply in_or_app. left. exact X. Qed.
(** What the word says *)
Lemma word_alone sp n a : proper sp -> stands_for sp n a -> exists full sep, as_option sp n = inl (Some (Found (Some a) full sep None)).
Proof.
  intros P [H|(c&r&rest&En&H&U)].
  - exists n, []. pose proof (dget_option sp n a P H) as G. destruct (name_dashed n (proj2 P _ _ H)) as (c&r&E). subst n. cbn [as_option]. change (N.eqb 45 45) with true. cbn [negb]. rewrite G. reflexivity.
  - destruct (dget n (sp_options sp)) as [b|] eqn:G.
    + exists n, []. pose proof (dget_In _ _ _ G) as Hb. assert (rest = []) by (symmetry; apply (U [] b); rewrite app_nil_r; exact Hb). subst rest. rewrite app_nil_r in H. pose proof (dget_option sp n a P H) as G'. assert (b = a) by congruence. subst b. rewrite En in G |- *. cbn [as_option]. change (N.eqb 45 45) with true. cbn [negb]. rewrite G. reflexivity.
    + exists (n ++ rest), (u "="). pose proof (abbreviation_parts sp n c r rest a P En H) as Ne. pose proof (abbreviation_tuples sp n c r rest a None n P En (partition_none n Ne) (ex_intro _ [] (eq_sym (app_nil_r n))) H U) as T.
      pose proof (partition_none n Ne) as Pn. rewrite En in G, T, Pn |- *. cbn [as_option]. change (N.eqb 45 45) with true. cbn [negb]. rewrite G, Pn, T. reflexivity.
Qed.
Lemma word_equals sp n a v : proper sp -> stands_for sp n a -> exists full, as_option sp (n ++ u "=" ++ v) = inl (Some (Found (Some a) full (u "=") (Some v))).
Proof.
  intros P S.
  assert (D : looks_like_option n /\ ~ In 61%N n).
  { destruct S as [H|(c&r&rest&En&H&U)]; [split; [exact (name_dashed n (proj2 P _ _ H))|exact (no_equals n (proj2 P _ _ H))]|]. split; [subst n; eexists; eexists; reflexivity|exact (abbreviation_parts sp n c r rest a P En H)]. }
  destruct D as ((c0&r0&E0)&Ne). pose proof (partition_some n v Ne) as Pn.
  assert (G0 : dget (n ++ u "=" ++ v) (sp_options sp) = None) by (apply dget_other; intros b Hb; apply (no_equals _ (proj2 P _ _ Hb)); apply in_or_app; right; left; reflexivity).
  assert (A : forall t, match dget n (sp_options sp) with Some b => inl (Some (Found (Some b) n (u "=") (Some v))) | None => match option_tuples sp (n ++ u "=" ++ v) with _ :: _ :: _ => inr SUsage | [t] => inl (Some t) | [] => inl t end end = inl (Some (Found (Some a) (if dget n (sp_options sp) then n else match option_tuples sp (n ++ u "=" ++ v) with [t] => fd_string t | _ => [] end) (u "=") (Some v)))).
  { intro t. destruct S as [H|(c&r&rest&En&H&U)].
    - rewrite (dget_option sp n a P H). reflexivity.
    - destruct (dget n (sp_options sp)) as [b|] eqn:G.
      + pose proof (dget_In _ _ _ G) as Hb. assert (rest = []) by (symmetry; apply (U [] b); rewrite app_nil_r; exact Hb). subst rest. rewrite app_nil_r in H. pose proof (dget_option sp n a P H) as G'. assert (b = a) by congruence. subst b. reflexivity.
      + rewrite (abbreviation_tuples sp n c r rest a (Some v) _ P En Pn (ex_intro _ _ eq_refl) H U). reflexivity. }
  eexists. revert Pn G0 A. rewrite E0. intros Pn G0 A. cbn [as_option app] in *. change (N.eqb 45 45) with true in *. cbn [negb] in *. rewrite G0, Pn.
  specialize (A (if negative_number (45%N :: c0 :: r0 ++ 61%N :: v) then None else if existsb (N.eqb 32) (45%N :: c0 :: r0 ++ 61%N :: v) then None else Some (Found None (45%N :: c0 :: r0 ++ 61%N :: v) [] None))).
  change (u "=" ++ v) with (61%N :: v) in *. refine (eq_trans _ A). destruct (dget (45%N :: c0 :: r0) (sp_options sp)); [reflexivity|]. destruct (option_tuples sp _) as [|? [|? ?]]; try reflexivity. destruct (negative_number _); [reflexivity|]. destruct (existsb _ _); reflexivity.
Qed.
Lemma word_attached sp c a v : proper sp -> In ([45%N; c], a) (sp_options sp) -> v <> [] -> hd 0%N v <> 61%N -> as_option sp ([45%N; c] ++ v) = inl (Some (Found (Some a) [45%N; c] [] (Some v))).
Proof.
  intros P H Hv Hh. pose proof (proj2 P _ _ H) as Hn. assert (Hc : c <> 45%N /\ c <> 61%N). { destruct Hn as [(c'&E&N1&N2)|(c'&r&E&_)]; [injection E as <-; auto|discriminate E]. } destruct Hc as (Hc1&Hc2).
  destruct v as [|d v]; [congruence|]. cbn [hd] in Hh.
  assert (NI : forall x, dget (45%N :: c :: d :: x) (sp_options sp) = None).
  { intro x. apply dget_other. intros b Hb. destruct (proj2 P _ _ Hb) as [(c'&E&_)|(c'&r&E&_)]; [discriminate E|injection E as E; congruence]. }
  cbn [app as_option]. change (N.eqb 45 45) with true. cbn [negb]. rewrite NI.
  assert (Pt : exists x e, partition_eq (45%N :: c :: d :: v) = (45%N :: c :: d :: x, e)).
  { unfold partition_eq. cbn [split_once]. change (45 =? 61)%N with false. rewrite (proj2 (N.eqb_neq c 61) Hc2), (proj2 (N.eqb_neq d 61) Hh). destruct (split_once 61 v) as [[y z]|]; eexists; eexists; reflexivity. }
  destruct Pt as (x&e&->). rewrite NI. replace (match e with Some _ => _ | None => _ end) with (match option_tuples sp (45%N :: c :: d :: v) with _ :: _ :: _ => inr SUsage | [t] => inl (Some t) | [] => if negative_number (45%N :: c :: d :: v) then inl None else if existsb (N.eqb 32) (45%N :: c :: d :: v) then inl None else inl (Some (Found None (45%N :: c :: d :: v) [] None)) end) by (destruct e; reflexivity).
  unfold option_tuples. rewrite (proj2 (N.eqb_neq c 45) Hc1).
  assert (F : flat_map (fun oa : str * (str * kind) => if str_eqb (fst oa) [45%N; c] then [Found (Some (snd oa)) (fst oa) [] (Some (d :: v))] else if is_prefix (45%N :: c :: d :: v) (fst oa) then [Found (Some (snd oa)) (fst oa) [] None] else []) (sp_options sp) = [Found (Some a) [45%N; c] [] (Some (d :: v))]).
  { transitivity (flat_map (fun oa : str * (str * kind) => if str_eqb (fst oa) [45%N; c] then [Found (Some (snd oa)) (fst oa) [] (Some (d :: v))] else []) (sp_options sp)).
    - destruct P as (_&P). revert P. generalize (sp_options sp) as l. induction l as [|[n b] l IH]; intro P; [reflexivity|]. cbn [flat_map fst snd]. rewrite IH by (intros m b' Hm; apply (P m b'); right; exact Hm). f_equal. destruct (str_eqb n [45%N; c]); [reflexivity|].
      destruct (is_prefix (45%N :: c :: d :: v) n) eqn:Ep; [|reflexivity]. apply is_prefix_spec in Ep as (q&->). destruct (P _ _ (or_introl eq_refl)) as [(c'&E&_)|(c'&r&E&_)]; [discriminate E|injection E as E; congruence].
    - change [Found (Some a) [45%N; c] [] (Some (d :: v))] with [(fun oa : str * (str * kind) => Found (Some (snd oa)) (fst oa) [] (Some (d :: v))) ([45%N; c], a)]. apply (only_one (fun oa : str * (str * kind) => str_eqb (fst oa) [45%N; c]) (fun oa : str * (str * kind) => Found (Some (snd oa)) (fst oa) [] (Some (d :: v)))).
      + apply nodup_of_keys, P.
      + exact H.
      + apply str_eqb_refl.
      + intros [m b] Hm Hp. cbn [fst] in Hp. apply str_eqb_eq in Hp. subst m. f_equal. pose proof (dget_option sp _ _ P Hm) as G1. pose proof (dget_option sp _ _ P H) as G2. congruence. }
  rewrite F. reflexivity.
Qed.

(** ** Running *)
Definition reads_as (sp : spec) (d : str) (v : value) (ws : list str) : Prop := exists toks,
  (forall rest, letters_of sp (ws ++ rest) = andthen (letters_of sp rest) (fun l => inl (toks ++ l))) /\
  (forall r group os done ps extras, run_words sp (toks ++ r) group os done ps extras = andthen (group_done false group done ps extras) (fun '(done, ps, extras) => run_words sp r [] (dset d v os) done ps extras)).
Lemma stands_not_dashes sp n a : proper sp -> stands_for sp n a -> n <> u "--".
Proof. intros P [H|(c&r&rest&->&_)]; [exact (not_dashes n (proj2 P _ _ H))|discriminate]. Qed.
Lemma store_accepted d ch v os : accepts ch v -> v <> u "--" -> store (d, KValue ch) v os = inl (dset d (VStr v) os).
Proof.
  intros A N. unfold store. cbn [snd fst]. rewrite (proj2 (str_eqb_neq v (u "--")) N). destruct ch as [l|]; [|reflexivity]. cbn [accepts] in A. rewrite (proj2 (memb_In v l) A). reflexivity.
Qed.
Lemma plain_not_dashes v : ~ looks_like_option v -> v <> u "--".
Proof. intros H ->. apply H. exists 45%N, []. reflexivity. Qed.
Lemma writes_reads sp d v ws : proper sp -> writes sp d v ws -> reads_as sp d v ws.
Proof.
  intros P W. destruct W as [n S|n ch v S A Hv|n ch v S A Hv|c ch v H A Hv Hh Hd].
  - destruct (word_alone sp n _ P S) as (full&sep&E). exists [LO (Found (Some (d, KFlag)) full sep None) n]. split.
    + intro rest. exact (letters_option sp n _ rest E (stands_not_dashes sp n _ P S)).
    + intros. reflexivity.
  - destruct (word_alone sp n _ P S) as (full&sep&E). exists [LO (Found (Some (d, KValue ch)) full sep None) n; LA v]. split.
    + intro rest. cbn [app]. rewrite (letters_option sp n _ (v :: rest) E (stands_not_dashes sp n _ P S)), (letters_word sp v rest P Hv), andthen_andthen. reflexivity.
    + intros. cbn [app run_words option_word fd_option fd_explicit plain_option takes snd fst andthen store_flags]. apply andthen_ext. intros [[done' ps'] extras']. rewrite (store_accepted d ch v os A (plain_not_dashes v Hv)). reflexivity.
  - destruct (word_equals sp n _ v P S) as (full&E). exists [LO (Found (Some (d, KValue ch)) full (u "=") (Some v)) (n ++ u "=" ++ v)]. split.
    + intro rest. apply (letters_option sp _ _ rest E). intro X. pose proof (f_equal (@length N) X) as Ln. rewrite !app_length in Ln. cbn [length u] in Ln. assert (L : (2 <= length n)%nat). { destruct S as [H|(c&r&rest'&->&_)]; [|cbn [length]; lia]. destruct (name_dashed n (proj2 P _ _ H)) as (c&r&->). cbn [length]. lia. } simpl in Ln. lia.
    + intros. cbn [app run_words option_word fd_option fd_explicit]. apply andthen_ext. intros [[done' ps'] extras']. destruct v as [|c0 v]; cbn [explicit_option takes snd fst andthen store_flags]; rewrite (store_accepted d ch _ os A Hv); reflexivity.
  - pose proof (word_attached sp c _ v P H Hv Hh) as E. exists [LO (Found (Some (d, KValue ch)) [45%N; c] [] (Some v)) ([45%N; c] ++ v)]. split.
    + intro rest. apply (letters_option sp _ _ rest E). destruct v as [|c0 v]; [congruence|]. discriminate.
    + intros. cbn [app run_words option_word fd_option fd_explicit]. apply andthen_ext. intros [[done' ps'] extras']. destruct v as [|c0 v]; [congruence|]. cbn [explicit_option takes snd fst andthen store_flags]. rewrite (store_accepted d ch _ os A Hd). reflexivity.
Qed.
(** The letters of a command line *)
Definition set_all (l : list (str * value)) (os : dict value) : dict value := fold_left (fun os dv => dset (fst dv) (snd dv) os) l os.
(** Single positionals take the words one by one, wherever they are. *)
Lemma fill_ones n : forall ws done, (forall w, In w ws -> w <> u "--") -> fill (repeat One n) (map LA ws) done = inl (done ++ map (fun w => [w]) (firstn n ws), repeat One (n - length ws), map LA (skipn n ws)).
Proof.
  induction n as [|n IH]; intros ws done H; cbn [repeat fill firstn skipn].
  - rewrite app_nil_r. reflexivity.
  - destruct ws as [|w ws]; cbn [map firstn skipn length Nat.sub repeat]; [rewrite app_nil_r; reflexivity|].
    replace (take_one (LA w :: map LA ws)) with (Some ([w], map LA ws)) by (destruct ws; reflexivity). cbn [drop_dashes]. rewrite (proj2 (str_eqb_neq w (u "--"))) by (apply H; left; reflexivity). rewrite IH by (intros x Hx; apply H; right; exact Hx). rewrite <- app_assoc. reflexivity.
Qed.
Lemma words_back ws : map word_of (map LA ws) = ws.
Proof. rewrite map_map. apply map_id. Qed.
Lemma group_ones final n ws done extras : (forall w, In w ws -> w <> u "--") ->
  group_done final (map LA ws) done (repeat One n) extras = inl (done ++ map (fun w => [w]) (firstn n ws), repeat One (n - length ws), extras ++ skipn n ws).
Proof.
  intro H. unfold group_done. pose proof (fill_ones n ws done H) as F. destruct ws as [|w ws].
  - cbn [map] in *. destruct final; [rewrite F; cbn [andthen]; rewrite !skipn_nil; reflexivity|]. rewrite !firstn_nil, !skipn_nil, !app_nil_r. cbn [length]. rewrite Nat.sub_0_r. reflexivity.
  - cbn [map] in *. rewrite F. cbn [andthen]. rewrite words_back. destruct final; reflexivity.
Qed.
Lemma lays_letters sp items argv : proper sp -> lays sp items argv -> exists toks, letters_of sp argv = inl toks /\
  forall n, sp_positionals sp = repeat One n -> forall m ws os done extras, (forall w, In w ws -> w <> u "--") ->
    run_words sp toks (map LA ws) os done (repeat One m) extras =
    inl (set_all (settings_of items) os, done ++ map (fun w => [w]) (firstn m (ws ++ words_of items)), repeat One (m - length (ws ++ words_of items)), extras ++ skipn m (ws ++ words_of items)).
Proof.
  intros P L. induction L as [|d v ws0 items argv W L (toks&E&R)|w items argv Hw L (toks&E&R)].
  - exists []. split; [reflexivity|]. intros n _ m ws os done extras H. cbn [run_words]. rewrite (group_ones true m ws done extras H). cbn [andthen words_of settings_of flat_map set_all fold_left]. rewrite !app_nil_r. reflexivity.
  - destruct (writes_reads sp d v ws0 P W) as (t0&E0&R0). exists (t0 ++ toks). split; [rewrite E0, E; reflexivity|]. intros n En m ws os done extras H. rewrite R0, (group_ones false m ws done extras H). cbn [andthen].
    change (words_of (Setting d v :: items)) with (words_of items). change (settings_of (Setting d v :: items)) with ((d, v) :: settings_of items). cbn [set_all fold_left fst snd]. change (@nil letter) with (map LA []). rewrite (R n En _ [] _ _ _ (fun w X => match X with end)). cbn [app].
    rewrite firstn_app, skipn_app, app_length, map_app, !app_assoc, Nat.sub_add_distr. reflexivity.
  - exists (LA w :: toks). split; [rewrite (letters_word sp w argv P Hw), E; reflexivity|]. intros n En m ws os done extras H. cbn [run_words]. replace (map LA ws ++ [LA w]) with (map LA (ws ++ [w])) by (rewrite map_app; reflexivity).
    rewrite (R n En) by (intros x Hx; apply in_app_or in Hx as [Hx|[<-|[]]]; [exact (H x Hx)|exact (plain_not_dashes _ Hw)]). change (words_of (Word w :: items)) with (w :: words_of items). change (settings_of (Word w :: items)) with (settings_of items). rewrite <- app_assoc. reflexivity.
Qed.
(** A parser with n single positionals: it accepts n words, and nothing else. *)
Lemma ones_parsed sp n items argv : proper sp -> sp_positionals sp = repeat One n -> lays sp items argv ->
  parse_command sp argv = if (length (words_of items) =? n)%nat then inl (set_all (settings_of items) [], map (fun w => [w]) (words_of items)) else inr SUsage.
Proof.
  intros P En L. destruct (lays_letters sp items argv P L) as (toks&E&R). unfold parse_command. rewrite E. cbn [andthen]. rewrite En. change (@nil letter) with (map LA []). rewrite (R n En n [] [] [] [] (fun w X => match X with end)). cbn [andthen app].
  destruct (Nat.eqb_spec (length (words_of items)) n) as [Hn|Hn].
  - rewrite <- Hn. rewrite Nat.sub_diag, firstn_all, skipn_all. reflexivity.
  - destruct (n - length (words_of items))%nat eqn:Ed; cbn [repeat]; [|reflexivity]. destruct (skipn n (words_of items)) eqn:Es; [|reflexivity]. exfalso. pose proof (f_equal (@length str) Es) as Ls. rewrite skipn_length in Ls. cbn [length] in Ls. lia.
Qed.

(** ** One list of words: + and * *)
Lemma lays_app sp i1 a1 i2 a2 : lays sp i1 a1 -> lays sp i2 a2 -> lays sp (i1 ++ i2) (a1 ++ a2).
Proof. intros L1 L2. induction L1; cbn [app]; [exact L2|rewrite <- app_assoc; constructor; assumption|constructor; assumption]. Qed.
(** Options only, between two groups *)
Lemma options_run sp items argv : proper sp -> lays sp items argv -> words_of items = [] -> exists toks, (forall rest, letters_of sp (argv ++ rest) = andthen (letters_of sp rest) (fun l => inl (toks ++ l))) /\
  forall r os done ps extras, run_words sp (toks ++ r) [] os done ps extras = run_words sp r [] (set_all (settings_of items) os) done ps extras.
Proof.
  intros P L. induction L as [|d v ws items argv W L IH|w items argv Hw L IH]; intro N.
  - exists []. split; [intro rest; cbn [app]; destruct (letters_of sp rest); reflexivity|reflexivity].
  - destruct (IH N) as (toks&E&R). destruct (writes_reads sp d v ws P W) as (t0&E0&R0). exists (t0 ++ toks). split.
    + intro rest. rewrite <- app_assoc, E0, E, andthen_andthen. apply andthen_ext. intro l. cbn [andthen]. rewrite <- app_assoc. reflexivity.
    + intros. rewrite <- app_assoc, R0. cbn [group_done andthen]. rewrite R. reflexivity.
  - discriminate N.
Qed.
Lemma words_run sp ws : proper sp -> (forall w, In w ws -> ~ looks_like_option w) -> (forall rest, letters_of sp (ws ++ rest) = andthen (letters_of sp rest) (fun l => inl (map LA ws ++ l))) /\
  forall r group os done ps extras, run_words sp (map LA ws ++ r) group os done ps extras = run_words sp r (group ++ map LA ws) os done ps extras.
Proof.
  intros P. induction ws as [|w ws IH]; intro H; [split; [intro rest; cbn [app]; destruct (letters_of sp rest); reflexivity|intros; rewrite app_nil_r; reflexivity]|].
  destruct IH as (E&R); [intros x Hx; apply H; right; exact Hx|]. split.
  - intro rest. cbn [app]. rewrite (letters_word sp w _ P (H w (or_introl eq_refl))), E, andthen_andthen. reflexivity.
  - intros. cbn [map app run_words]. rewrite R, <- app_assoc. reflexivity.
Qed.
Lemma drop_none ws : (forall w, In w ws -> w <> u "--") -> drop_dashes ws = ws.
Proof.
  induction ws as [|w ws IH]; intro H; [reflexivity|]. cbn [drop_dashes]. rewrite (proj2 (str_eqb_neq w (u "--"))) by (apply H; left; reflexivity). rewrite IH; [reflexivity|]. intros x Hx. apply H. right. exact Hx.
Qed.
(** The group of words closes before the next option or at the end. *)
Lemma many_parsed sp x before b ws after a : proper sp -> (sp_positionals sp = [x] /\ (x = Plus \/ x = Star)) -> lays sp before b -> lays sp after a -> words_of before = [] -> words_of after = [] -> (forall w, In w ws -> ~ looks_like_option w) -> ws <> [] ->
  parse_command sp (b ++ ws ++ a) = inl (set_all (settings_of (before ++ after)) [], [ws]).
Proof.
  intros P (Ep&Hx) L1 L2 N1 N2 Hw Hne. destruct (options_run sp before b P L1 N1) as (t1&E1&R1). destruct (words_run sp ws P Hw) as (E2&R2). unfold parse_command.
  assert (F : forall final done os, group_done final (map LA ws) done [x] os = inl (done ++ [ws], [], os)).
  { intros final done os. unfold group_done. destruct ws as [|w ws]; [congruence|]. cbn [map]. assert (G : fill [x] (LA w :: map LA ws) done = inl (done ++ [w :: ws], [], [])).
    { destruct Hx as [-> | ->]; cbn [fill existsb is_word orb]; change (LA w :: map LA ws) with (map LA (w :: ws)); rewrite words_back, drop_none; try reflexivity; intros y Hy; apply plain_not_dashes, Hw, Hy. }
    rewrite G. cbn [andthen map]. rewrite app_nil_r. destruct final; reflexivity. }
  inversion L2 as [Ei Ea|d v ws0 items argv W L Ei Ea|w items argv Hw0 L Ei Ea]; subst.
  - rewrite !app_nil_r. replace ws with (ws ++ []) at 1 by apply app_nil_r. rewrite E1, E2. cbn [letters_of andthen app]. rewrite app_nil_r. rewrite Ep. rewrite R1. replace (map LA ws) with (map LA ws ++ []) by apply app_nil_r. rewrite R2. cbn [run_words app]. rewrite F. cbn [andthen]. reflexivity.
  - destruct (writes_reads sp d v ws0 P W) as (t3&E3&R3). destruct (options_run sp items argv P L N2) as (t4&E4&R4). rewrite E1, E2, E3. replace argv with (argv ++ []) by apply app_nil_r. rewrite E4. cbn [letters_of andthen]. rewrite Ep, R1, R2, R3. cbn [app]. rewrite F. cbn [andthen]. rewrite R4. cbn [run_words group_done fill andthen map].
    unfold settings_of, set_all. rewrite flat_map_app, fold_left_app. reflexivity.
  - discriminate N2.
Qed.
(** No words at all *)
Lemma none_parsed sp items argv : proper sp -> lays sp items argv -> words_of items = [] ->
  (sp_positionals sp = [Plus] -> parse_command sp argv = inr SUsage) /\ (sp_positionals sp = [Star] -> parse_command sp argv = inl (set_all (settings_of items) [], [[]])).
Proof.
  intros P L N. destruct (options_run sp items argv P L N) as (t&E&R). specialize (E []). rewrite app_nil_r in E. cbn [letters_of andthen] in E. unfold parse_command. split; intro Ep; rewrite E; cbn [andthen]; rewrite Ep, R; reflexivity.
Qed.
(** Settings: the last one counts. *)
Lemma dget_set_all d l : forall os, dget d (set_all l os) = last (map (fun dv => Some (snd dv)) (filter (fun dv => str_eqb (fst dv) d) l)) (dget d os).
Proof.
  induction l as [|[d' v] l IH]; intro os; [reflexivity|]. cbn [set_all fold_left fst snd filter]. fold (set_all l (dset d' v os)). rewrite IH, dget_dset.
  destruct (str_eqb_spec d' d) as [->|Nd]; [rewrite str_eqb_refl; cbn [map snd]|rewrite (proj2 (str_eqb_neq d d')) by congruence; reflexivity].
  generalize (map (fun dv : str * value => Some (snd dv)) (filter (fun dv : str * value => str_eqb (fst dv) d) l)) as q. clear. induction q as [|x q IH]; [reflexivity|]. destruct q as [|y q]; [reflexivity|]. exact IH.
Qed.
Lemma given_set d items : dget (u d) (set_all (settings_of items) []) = given d items.
Proof. apply dget_set_all. Qed.
