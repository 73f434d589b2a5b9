(** * PropsScriptArgv: C98, the command lines of the other scripts *)

From Coq Require Import Lia.
From Verif Require Import PyBase PyFacts Jabmod IrvModel ScoreModel TextFacts ResultsJson HtmlModel CliModel ArgvModel ArgparseModel ArgparseFacts ScriptsModel SftxtMainModel UrlText DebtallyModel PosixModel ExtfileModel SpecfileModel PropsSpecfile ScriptArgvModel.
Local Open Scope Z_scope.

(** ** The parsers are proper *)
Definition name_ok (n : str) : bool :=
  match n with
  | [a; c] => N.eqb a 45 && negb (N.eqb c 45) && negb (N.eqb c 61)
  | a :: d :: c :: r => N.eqb a 45 && N.eqb d 45 && forallb (fun x => negb (N.eqb x 61)) n
  | _ => false
  end.
Lemma name_ok_spec n : name_ok n = true -> option_name n.
Proof.
  destruct n as [|a [|c [|d r]]]; try discriminate; cbn [name_ok]; intro H.
  - apply andb_prop in H as (H&H3). apply andb_prop in H as (H1&H2). apply N.eqb_eq in H1. subst a. left. exists c. split; [reflexivity|]. split; intros ->; discriminate.
  - apply andb_prop in H as (H&H3). apply andb_prop in H as (H1&H2). apply N.eqb_eq in H1, H2. subst. right. exists d, r. split; [reflexivity|]. intro X. rewrite forallb_forall in H3. specialize (H3 _ X). discriminate.
Qed.
Fixpoint distinct (l : list str) : bool := match l with [] => true | x :: r => negb (memb x r) && distinct r end.
Lemma distinct_spec l : distinct l = true -> NoDup l.
Proof.
  induction l as [|x l IH]; cbn [distinct]; intro H; constructor; apply andb_prop in H as (H1&H2); [|apply IH, H2]. apply negb_true_iff in H1. intro X. apply memb_In in X. congruence.
Qed.
Lemma proper_check sp : distinct (map fst (sp_options sp)) && forallb (fun oa => name_ok (fst oa)) (sp_options sp) = true -> proper sp.
Proof.
  intro H. apply andb_prop in H as (H1&H2). split; [apply distinct_spec, H1|]. intros n a Hin. rewrite forallb_forall in H2. apply name_ok_spec. exact (H2 _ Hin).
Qed.
Lemma proper_one_file : proper one_file. Proof. apply proper_check. reflexivity. Qed.
Lemma proper_irvtally : proper irvtally_spec. Proof. apply proper_check. reflexivity. Qed.
Lemma proper_copedot : proper copedot_spec. Proof. apply proper_check. reflexivity. Qed.
Lemma proper_core : proper core_spec. Proof. apply proper_check. reflexivity. Qed.
Lemma proper_sftxt : proper sftxt_spec. Proof. apply proper_check. reflexivity. Qed.
Lemma proper_fetchmgr : proper fetchmgr_spec. Proof. apply proper_check. reflexivity. Qed.

(** ** C98 *)
(** The seven scripts that take one file and no option: one word is the file, any other number of words is an error that reads and prints nothing. *)
Theorem C98_file_scripts : forall s rn scaled yaml help main items argv,
  In main [pairwise_main s rn; scorestar_main s scaled; debtally_main s; preflib_main s; html_pairwise_main s rn; html_scorestar_main s scaled; configtool_main s yaml] -> lays one_file items argv ->
  file_script main help argv = match words_of items with [f] => ran (main f) | _ => Process [] [] 2 end.
Proof.
  intros s rn scaled yaml help main items argv _ L. unfold file_script. rewrite (ones_parsed one_file 1 items argv proper_one_file eq_refl L). destruct (words_of items) as [|f [|g ws]]; reflexivity.
Qed.
Print Assumptions C98_file_scripts.
(** irvtally.py: -j or --json anywhere on the line asks for JSON. *)
Theorem C98_irvtally : forall s rn help items argv, lays irvtally_spec items argv ->
  irvtally_script s rn help argv = match words_of items with [f] => ran (irvtally_main s rn (match given "json" items with Some VTrue => true | _ => false end) f) | _ => Process [] [] 2 end.
Proof.
  intros s rn help items argv L. unfold irvtally_script. rewrite (ones_parsed irvtally_spec 1 items argv proper_irvtally eq_refl L). destruct (words_of items) as [|f [|g ws]]; try reflexivity. cbn [length Nat.eqb map]. unfold is_set. rewrite given_set. reflexivity.
Qed.
Print Assumptions C98_irvtally.
(** copedot.py: the last --outfmt counts, and svg is the default. *)
Theorem C98_copedot : forall s rn help items argv, lays copedot_spec items argv ->
  copedot_script s rn help argv = match words_of items with [f] => ran (copedot_main s rn (match given "outfmt" items with Some (VStr fmt) => fmt | _ => u "svg" end) f) | _ => Process [] [] 2 end.
Proof.
  intros s rn help items argv L. unfold copedot_script. rewrite (ones_parsed copedot_spec 1 items argv proper_copedot eq_refl L). destruct (words_of items) as [|f [|g ws]]; try reflexivity. cbn [length Nat.eqb map]. unfold value_or, value_of. rewrite given_set. destruct (given "outfmt" items) as [[|v]|]; reflexivity.
Qed.
Print Assumptions C98_copedot.
(** sftxt.py: the first word is the lookup file, the second the image file, options before, between and after. *)
Theorem C98_sftxt : forall fs help items argv, lays sftxt_spec items argv ->
  let text d := match given d items with Some (VStr v) => Some v | _ => None end in
  let flag d := match given d items with Some VTrue => true | _ => false end in
  sftxt_script fs help argv = match words_of items with
    | [l; i] => let o := sftxt_main fs (SfArgs (flag "imagelines"%string) l i (text "outfile"%string) (text "contestid"%string) (match text "outputformat"%string with Some f => f | None => u "json" end) (flag "consolidate"%string)) in
                (so_files o, so_stdout o, match so_exn o with None => 0 | Some _ => 1 end)
    | _ => (fs, [], 2)
    end.
Proof.
  intros fs help items argv L text flag. unfold sftxt_script. rewrite (ones_parsed sftxt_spec 2 items argv proper_sftxt eq_refl L). destruct (words_of items) as [|f [|g [|h ws]]]; try reflexivity. cbn [length Nat.eqb map]. unfold sftxt_args, is_set, value_or, value_of. rewrite !given_set. reflexivity.
Qed.
Print Assumptions C98_sftxt.
(** core.py: options, words in one group, options.  No word, or a second group of words, is an error. *)
Theorem C98_core : forall list_str help before b ws after a, lays core_spec before b -> lays core_spec after a -> words_of before = [] -> words_of after = [] -> (forall w, In w ws -> ~ looks_like_option w) ->
  core_script list_str help (b ++ ws ++ a) = match ws with [] => Process [] [] 2 | _ => ran (core_main list_str (match given "func" (before ++ after) with Some (VStr f) => f | _ => u "pref_to_dict" end) ws) end.
Proof.
  intros list_str help before b ws after a L1 L2 N1 N2 Hw. unfold core_script. destruct ws as [|w ws].
  - cbn [app]. assert (L : lays core_spec (before ++ after) (b ++ a)) by (apply lays_app; assumption). assert (N : words_of (before ++ after) = []) by (unfold words_of in *; rewrite flat_map_app, N1, N2; reflexivity). rewrite (proj1 (none_parsed core_spec _ _ proper_core L N) eq_refl). reflexivity.
  - rewrite (many_parsed core_spec Plus before b (w :: ws) after a proper_core (conj eq_refl (or_introl eq_refl)) L1 L2 N1 N2 Hw) by discriminate. unfold value_or, value_of. rewrite given_set. destruct (given "func" (before ++ after)) as [[|v]|]; reflexivity.
Qed.
Print Assumptions C98_core.
(** fetchmgr.py: the words are the specification files, done in order; --abif makes no difference. *)
Theorem C98_fetchmgr : forall server git sha1 tar help before b ws after a w, lays fetchmgr_spec before b -> lays fetchmgr_spec after a -> words_of before = [] -> words_of after = [] -> (forall x, In x ws -> ~ looks_like_option x) ->
  fetchmgr_script server git sha1 tar help (b ++ ws ++ a) w = let r := fetchmgr_main server git sha1 tar None ws w in (snd r, match fst r with Ok _ => 0 | Err _ => 1 end).
Proof.
  intros server git sha1 tar help before b ws after a w L1 L2 N1 N2 Hw. unfold fetchmgr_script. destruct ws as [|x ws].
  - cbn [app]. assert (L : lays fetchmgr_spec (before ++ after) (b ++ a)) by (apply lays_app; assumption). assert (N : words_of (before ++ after) = []) by (unfold words_of in *; rewrite flat_map_app, N1, N2; reflexivity). rewrite (proj2 (none_parsed fetchmgr_spec _ _ proper_fetchmgr L N) eq_refl). reflexivity.
  - rewrite (many_parsed fetchmgr_spec Star before b (x :: ws) after a proper_fetchmgr (conj eq_refl (or_intror eq_refl)) L1 L2 N1 N2 Hw) by discriminate. reflexivity.
Qed.
Print Assumptions C98_fetchmgr.
(** --abif is documented as a switch (generate ABIF files) but takes a value: in fetchmgr.py -a SPEC the specification is that value, nothing is
    fetched, and the status is 1. *)
Theorem C98_abif_switch_refuted : forall server git sha1 tar help name spec w, In name [u "-a"; u "--abif"; u "--ab"] -> ~ looks_like_option spec ->
  fetchmgr_script server git sha1 tar help [name; spec] w = (with_events w [EPrint (u "Please provide at least one fetchspec (see fetchspecs/*)")], 1).
Proof.
  intros server git sha1 tar help name spec w Hn Hs. assert (L : lays fetchmgr_spec [Setting (u "abif") (VStr spec)] ([name; spec] ++ [])).
  { constructor; [|constructor]. apply (two_words fetchmgr_spec (u "abif") name None spec); [|exact I|exact Hs]. destruct Hn as [<- | [<- | [<- | []]]]; [left; cbn; tauto|left; cbn; tauto|right].
    exists 97%N, [98%N], (u "if"). split; [reflexivity|]. split; [cbn; tauto|]. intros rest' b [H|[H|[H|[H|[]]]]]; try discriminate H. injection H as H _. symmetry. exact H. }
  pose proof (C98_fetchmgr server git sha1 tar help _ _ [] [] [] w L (lays_nil _) eq_refl eq_refl (fun x X => match X with end)) as E. cbn [app] in E. rewrite E. rewrite C70_no_arguments. reflexivity.
Qed.
Print Assumptions C98_abif_switch_refuted.

(** ** Errors *)
(** The text before -- *)
Lemma ambiguous_anywhere sp l1 s l2 : as_option sp s = Datatypes.inr SUsage -> s <> u "--" -> ~ In (u "--") l1 -> parse_command sp (l1 ++ s :: l2) = Datatypes.inr SUsage.
Proof.
  intros E Ns N1. unfold parse_command. assert (G : letters_of sp (l1 ++ s :: l2) = Datatypes.inr SUsage); [|rewrite G; reflexivity]. induction l1 as [|x l1 IH].
  - cbn [app letters_of]. rewrite (proj2 (str_eqb_neq s (u "--")) Ns), E. reflexivity.
  - cbn [app letters_of]. rewrite (proj2 (str_eqb_neq x (u "--"))) by (intros ->; apply N1; left; reflexivity). rewrite IH by (intro X; apply N1; right; exact X).
    assert (U : forall e, as_option sp x = Datatypes.inr e -> e = SUsage).
    { intro e. unfold as_option. destruct x as [|c r]; [discriminate|]. destruct (negb (N.eqb c 45)); [discriminate|]. destruct (dget _ _); [discriminate|]. destruct r; [discriminate|]. destruct (partition_eq _) as [bf [af|]]; [destruct (dget bf _); [discriminate|]|]; (destruct (option_tuples sp _) as [|? [|? ?]]; [destruct (negative_number _); [discriminate|]; destruct (existsb _ _); discriminate|discriminate|]; intro H; injection H as <-; reflexivity). }
    destruct (as_option sp x) as [o|e] eqn:Ex; cbn [andthen]; [reflexivity|]. rewrite (U e eq_refl). reflexivity.
Qed.
Lemma two_found {X Y} (p : X -> bool) (g : X -> Y) l x y : In x l -> In y l -> x <> y -> p x = true -> p y = true -> exists a b r, flat_map (fun z => if p z then [g z] else []) l = a :: b :: r.
Proof.
  intros Hx Hy N Px Py. assert (One : forall l z, In z l -> p z = true -> exists a r, flat_map (fun z => if p z then [g z] else []) l = a :: r).
  { clear. intros l z. induction l as [|w l IH]; intros Hz Pz; [destruct Hz|]. cbn [flat_map]. destruct (p w) eqn:Ew; [eexists; eexists; reflexivity|]. destruct Hz as [->|Hz]; [congruence|]. cbn [app]. apply IH; assumption. }
  induction l as [|w l IH]; [destruct Hx|]. cbn [flat_map]. destruct Hx as [->|Hx], Hy as [->|Hy].
  - congruence.
  - rewrite Px. destruct (One l y Hy Py) as (a&r&->). eexists; eexists; eexists; reflexivity.
  - rewrite Py. destruct (One l x Hx Px) as (a&r&->). eexists; eexists; eexists; reflexivity.
  - destruct (IH Hx Hy) as (a&b0&r&->). destruct (p w); eexists; eexists; eexists; reflexivity.
Qed.
(** The beginning of two long names, alone or with =VALUE, is an error wherever it stands before a --. *)
Theorem C98_ambiguous : forall sp p more c r m1 a1 m2 a2 l1 l2, proper sp -> p = 45%N :: 45%N :: c :: r -> ~ In 61%N p -> (more = [] \/ exists v, more = u "=" ++ v) ->
  In (p ++ m1, a1) (sp_options sp) -> In (p ++ m2, a2) (sp_options sp) -> m1 <> [] -> m2 <> [] -> m1 <> m2 -> (forall a, ~ In (p, a) (sp_options sp)) -> ~ In (u "--") l1 ->
  parse_command sp (l1 ++ (p ++ more) :: l2) = Datatypes.inr SUsage.
Proof.
  intros sp p more c r m1 a1 m2 a2 l1 l2 P Ep Ne Hm H1 H2 _ _ Nm Np Nd. apply ambiguous_anywhere; [|rewrite Ep; destruct more; discriminate|exact Nd].
  assert (Pt : exists e, partition_eq (p ++ more) = (p, e)) by (destruct Hm as [-> | (v&->)]; [rewrite app_nil_r, (partition_none p Ne)|rewrite (partition_some p v Ne)]; eexists; reflexivity). destruct Pt as (e&Pt).
  assert (G0 : dget (p ++ more) (sp_options sp) = None). { apply dget_other. intros b Hb. destruct Hm as [-> | (v&->)]; [rewrite app_nil_r in Hb; exact (Np b Hb)|]. apply (no_equals _ (proj2 P _ _ Hb)). apply in_or_app. right. left. reflexivity. }
  assert (G1 : dget p (sp_options sp) = None) by (apply dget_other; exact Np).
  assert (T : exists a b q, option_tuples sp (p ++ more) = a :: b :: q).
  { assert (Es : exists q', p ++ more = 45%N :: 45%N :: q') by (rewrite Ep; eexists; reflexivity). destruct Es as (q'&Es). unfold option_tuples. rewrite Es. change (N.eqb 45 45) with true. cbv iota. rewrite <- Es, Pt.
    apply (two_found (fun oa : str * (str * kind) => is_prefix p (fst oa)) (fun oa : str * (str * kind) => Found (Some (snd oa)) (fst oa) (u "=") e) _ (p ++ m1, a1) (p ++ m2, a2)); try assumption; try (apply is_prefix_spec; eexists; reflexivity).
    intro X. injection X as X _. apply app_inv_head in X. contradiction. }
  destruct T as (x&y&q&T). assert (Es : exists d q', p ++ more = 45%N :: d :: q') by (rewrite Ep; eexists; eexists; reflexivity). destruct Es as (d&q'&Es). rewrite Es in Pt, G0, T |- *. cbn [as_option]. change (N.eqb 45 45) with true. cbn [negb]. rewrite G0, Pt, G1, T. destruct e; reflexivity.
Qed.
Print Assumptions C98_ambiguous.
(** Extras are never given back. *)
Lemma group_extras final group done ps extras x : group_done final group done ps extras = inl x -> exists more, snd x = extras ++ more.
Proof.
  unfold group_done. destruct group as [|t group], final; try (intro H; injection H as <-; exists []; symmetry; apply app_nil_r); (destruct (fill ps _ done) as [[[d p] rest]|e]; cbn [andthen]; [|discriminate]; intro H; injection H as <-; eexists; reflexivity).
Qed.
Lemma extras_grow sp toks : forall group os done ps extras x, run_words sp toks group os done ps extras = inl x -> exists more, snd x = extras ++ more.
Proof.
  assert (W : forall n toks, (length toks <= n)%nat -> forall group os done ps extras x, run_words sp toks group os done ps extras = inl x -> exists more, snd x = extras ++ more); [|intros; apply (W (length toks) toks (le_n _) group os done ps); assumption].
  induction n as [|n IH]; intros [|t r] Hn group os done ps extras x H; cbn [length] in Hn; try lia; cbn [run_words] in H.
  - destruct (group_done true group done ps extras) as [[[d p] e]|] eqn:G; cbn [andthen] in H; [|discriminate H]. injection H as <-. exact (group_extras _ _ _ _ _ _ G).
  - destruct (group_done true group done ps extras) as [[[d p] e]|] eqn:G; cbn [andthen] in H; [|discriminate H]. injection H as <-. exact (group_extras _ _ _ _ _ _ G).
  - assert (K : forall r', (length r' <= n)%nat -> forall os d p more e x, e = extras ++ more -> run_words sp r' [] os d p e = inl x -> exists more, snd x = extras ++ more).
    { intros r' Lr os' d p more e x' -> Hr. destruct (IH r' Lr _ _ _ _ _ _ Hr) as (m2&E). rewrite E, <- app_assoc. eexists. reflexivity. }
    destruct t as [t s|s|]; [|apply (IH r ltac:(lia) _ _ _ _ _ _ H)|apply (IH r ltac:(lia) _ _ _ _ _ _ H)].
    destruct (group_done false group done ps extras) as [[[d p] e]|] eqn:G; cbn [andthen] in H; [|discriminate H]. apply group_extras in G as (m1&Em). cbn [snd] in Em.
    destruct (option_word sp t s) as [[fl en]|]; cbn [andthen fst snd] in H; [|discriminate H]. destruct en as [|a v|a|y].
    + destruct (store_flags fl os); cbn [andthen] in H; [|discriminate H]. exact (K r ltac:(lia) _ _ _ m1 _ _ Em H).
    + destruct (store_flags fl os); cbn [andthen] in H; [|discriminate H]. destruct (store a v _); cbn [andthen] in H; [|discriminate H]. exact (K r ltac:(lia) _ _ _ m1 _ _ Em H).
    + destruct r as [|[| |] r']; try discriminate H. destruct (store_flags fl os); cbn [andthen] in H; [|discriminate H]. destruct (store a s0 _); cbn [andthen] in H; [|discriminate H]. cbn [length] in Hn. exact (K r' ltac:(lia) _ _ _ m1 _ _ Em H).
    + destruct (store_flags fl os); cbn [andthen] in H; [|discriminate H]. apply (K r ltac:(lia) _ _ _ (m1 ++ [y]) _ _) in H; [exact H|]. rewrite Em, app_assoc. reflexivity.
Qed.
Lemma unknown_left sp t s : forall toks r, fd_option t = None -> forall group os done ps extras x, run_words sp (toks ++ LO t s :: r) group os done ps extras = inl x -> snd x <> [].
Proof.
  intros toks r Ht. assert (W : forall n toks, (length toks <= n)%nat -> forall group os done ps extras x, run_words sp (toks ++ LO t s :: r) group os done ps extras = inl x -> snd x <> []); [|intros; apply (W (length toks) toks (le_n _) group os done ps extras); assumption].
  induction n as [|n IH]; intros [|t0 q] Hn group os done ps extras x H; cbn [length] in Hn; try lia; cbn [app run_words] in H.
  - destruct (group_done false group done ps extras) as [[[d p] e]|]; cbn [andthen] in H; [|discriminate H]. unfold option_word in H. rewrite Ht in H. cbn [andthen fst snd store_flags] in H. apply extras_grow in H as (more&->). destruct e; discriminate.
  - destruct (group_done false group done ps extras) as [[[d p] e]|]; cbn [andthen] in H; [|discriminate H]. unfold option_word in H. rewrite Ht in H. cbn [andthen fst snd store_flags] in H. apply extras_grow in H as (more&->). destruct e; discriminate.
  - destruct t0 as [t0 s0|s0|]; [|apply (IH q ltac:(lia) _ _ _ _ _ _ H)|apply (IH q ltac:(lia) _ _ _ _ _ _ H)].
    destruct (group_done false group done ps extras) as [[[d p] e]|]; cbn [andthen] in H; [|discriminate H].
    destruct (option_word sp t0 s0) as [[fl en]|]; cbn [andthen fst snd] in H; [|discriminate H]. destruct en as [|a v|a|y].
    + destruct (store_flags fl os); cbn [andthen] in H; [|discriminate H]. apply (IH q ltac:(lia) _ _ _ _ _ _ H).
    + destruct (store_flags fl os); cbn [andthen] in H; [|discriminate H]. destruct (store a v _); cbn [andthen] in H; [|discriminate H]. apply (IH q ltac:(lia) _ _ _ _ _ _ H).
    + destruct q as [|[| |] q']; cbn [app] in H; try discriminate H. destruct (store_flags fl os); cbn [andthen] in H; [|discriminate H]. destruct (store a s1 _); cbn [andthen] in H; [|discriminate H]. cbn [length] in Hn. apply (IH q' ltac:(lia) _ _ _ _ _ _ H).
    + destruct (store_flags fl os); cbn [andthen] in H; [|discriminate H]. apply (IH q ltac:(lia) _ _ _ _ _ _ H).
Qed.
(** An option the parser does not know: no name begins with it (up to the =), it is no short option with something attached, no negative number, and has no
    space in it.  Wherever it stands before a --, main() is not run. *)
Definition unknown_option (sp : spec) (s : str) : Prop :=
  looks_like_option s /\ s <> u "--" /\ ~ In 32%N s /\ negative_number s = false /\ forall n a, In (n, a) (sp_options sp) -> is_prefix (fst (partition_eq s)) n = false /\ (length n = 2%nat -> is_prefix n s = false).
Lemma unknown_read sp s : proper sp -> unknown_option sp s -> exists t, as_option sp s = inl (Some t) /\ fd_option t = None.
Proof.
  intros P ((c&r&->)&Nd&Ns&Nn&U). assert (Pr : forall n, is_prefix n n = true) by (intro n; apply is_prefix_spec; exists []; symmetry; apply app_nil_r).
  assert (Pp : exists q, 45%N :: c :: r = fst (partition_eq (45%N :: c :: r)) ++ q).
  { unfold partition_eq. destruct (split_once 61 (45%N :: c :: r)) as [[x y]|] eqn:E; [|exists []; cbn [fst]; rewrite app_nil_r; reflexivity]. cbn [fst]. clear -E. revert x E. generalize (45%N :: c :: r) as l. induction l as [|d l IH]; intros x E; [discriminate E|]. cbn [split_once] in E. destruct (N.eqb d 61); [injection E as <- <-; exists (d :: l); reflexivity|]. destruct (split_once 61 l) as [[x' y']|]; [|discriminate E]. injection E as <- <-. destruct (IH x' eq_refl) as (q&->). exists q. reflexivity. }
  assert (G1 : dget (fst (partition_eq (45%N :: c :: r))) (sp_options sp) = None) by (apply dget_other; intros a Ha; destruct (U _ _ Ha) as (U1&_); rewrite Pr in U1; discriminate).
  assert (G0 : dget (45%N :: c :: r) (sp_options sp) = None).
  { apply dget_other. intros a Ha. destruct (U _ _ Ha) as (U1&_). destruct Pp as (q&Eq). rewrite (proj2 (is_prefix_spec _ _) (ex_intro _ q Eq)) in U1. discriminate. }
  assert (T : option_tuples sp (45%N :: c :: r) = []).
  { unfold option_tuples. destruct (N.eqb_spec c 45) as [->|Nc].
    - destruct (partition_eq (45%N :: 45%N :: r)) as [p e]. cbn [fst] in U. revert U. generalize (sp_options sp) as l. induction l as [|[n a] l IH]; intro U; [reflexivity|]. cbn [flat_map fst]. rewrite (proj1 (U n a (or_introl eq_refl))). apply IH. intros m b Hm. apply (U m b). right. exact Hm.
    - destruct P as (_&P). destruct Pp as (q&Eq). revert U P. generalize (sp_options sp) as l. induction l as [|[n a] l IH]; intros U P; [reflexivity|]. cbn [flat_map fst snd]. rewrite IH by (intros m b Hm; first [apply (U m b)|apply (P m b)]; right; exact Hm). rewrite app_nil_r.
      destruct (str_eqb_spec n [45%N; c]) as [->|]; [destruct (U _ _ (or_introl eq_refl)) as (_&U2); specialize (U2 eq_refl); cbn [is_prefix] in U2; rewrite !N.eqb_refl in U2; discriminate|].
      destruct (is_prefix (45%N :: c :: r) n) eqn:Ep; [|reflexivity]. destruct (U _ _ (or_introl eq_refl)) as (U1&_). apply is_prefix_spec in Ep as (q2&->). rewrite (proj2 (is_prefix_spec _ _)) in U1; [discriminate|]. exists (q ++ q2). rewrite app_assoc, <- Eq. reflexivity. }
  cbn [as_option]. change (N.eqb 45 45) with true. cbn [negb]. rewrite G0. destruct (partition_eq (45%N :: c :: r)) as [p e]. cbn [fst] in G1. rewrite G1, T, Nn.
  assert (Sp : existsb (N.eqb 32) (45%N :: c :: r) = false). { destruct (existsb (N.eqb 32) (45%N :: c :: r)) eqn:E; [|reflexivity]. apply existsb_exists in E as (x&Hx&E). apply N.eqb_eq in E. subst x. contradiction. }
  rewrite Sp. eexists. split; [destruct e; reflexivity|reflexivity].
Qed.
Theorem C98_unknown : forall sp l1 s l2 x, proper sp -> unknown_option sp s -> ~ In (u "--") l1 -> parse_command sp (l1 ++ s :: l2) <> inl x.
Proof.
  intros sp l1 s l2 x P Un N1 H. pose proof Un as (_&Nd&_). destruct (unknown_read sp s P Un) as (t&Et&Ft). unfold parse_command in H. destruct (letters_of sp (l1 ++ s :: l2)) as [toks|] eqn:El; cbn [andthen] in H; [|discriminate H].
  assert (S : exists q r, toks = q ++ LO t s :: r).
  { clear H. revert toks El. induction l1 as [|y l1 IH]; intros toks El; cbn [app letters_of] in El.
    - rewrite (proj2 (str_eqb_neq s (u "--")) Nd), Et in El. cbn [andthen] in El. destruct (letters_of sp l2) as [l|]; cbn [andthen] in El; [|discriminate El]. injection El as <-. exists [], l. reflexivity.
    - rewrite (proj2 (str_eqb_neq y (u "--"))) in El by (intros ->; apply N1; left; reflexivity). destruct (as_option sp y) as [o|]; cbn [andthen] in El; [|discriminate El]. destruct (letters_of sp (l1 ++ s :: l2)) as [l|]; cbn [andthen] in El; [|discriminate El]. injection El as <-. destruct (IH (fun X => N1 (or_intror X)) l eq_refl) as (q&r&->). eexists (_ :: q), r. reflexivity. }
  destruct S as (q&r&->). destruct (run_words sp (q ++ LO t s :: r) [] [] [] (sp_positionals sp) []) as [[[[os done] ps] extras]|] eqn:Er; cbn [andthen] in H; [|discriminate H]. apply unknown_left in Er; [|exact Ft]. cbn [snd] in Er. destruct ps; [|discriminate H]. destruct extras; [congruence|discriminate H].
Qed.
Print Assumptions C98_unknown.

(** ** A wrong value, -h, and -- *)
Lemma fill_words ps : forall ws done, (forall w, In w ws -> w <> u "--") -> exists x, fill ps (map LA ws) done = inl x.
Proof.
  induction ps as [|[| |] ps IH]; intros ws done H; cbn [fill]; [eexists; reflexivity| | |].
  - destruct ws as [|w ws]; [eexists; reflexivity|]. cbn [map]. replace (take_one (LA w :: map LA ws)) with (Some ([w], map LA ws)) by (destruct ws; reflexivity). cbn [drop_dashes]. rewrite (proj2 (str_eqb_neq w (u "--"))) by (apply H; left; reflexivity). apply IH. intros x Hx. apply H. right. exact Hx.
  - destruct (existsb is_word (map LA ws)); [|eexists; reflexivity]. apply (IH []). intros w [].
  - apply (IH []). intros w [].
Qed.
Lemma group_words final ws done ps extras : (forall w, In w ws -> w <> u "--") -> exists x, group_done final (map LA ws) done ps extras = inl x.
Proof.
  intro H. unfold group_done. destruct (fill_words ps ws done H) as ([[d p] rest]&E). destruct (map LA ws) as [|t l]; destruct final; try (rewrite E; cbn [andthen]; eexists; reflexivity). eexists. reflexivity.
Qed.
(** An option that stops, after a regular beginning *)
Lemma stops_run sp items argv t s e : proper sp -> lays sp items argv -> (forall r os done ps extras, run_words sp (LO t s :: r) [] os done ps extras = Datatypes.inr e) -> exists toks, (forall rest, letters_of sp (argv ++ rest) = andthen (letters_of sp rest) (fun l => inl (toks ++ l))) /\
  forall r ws os done ps extras, (forall w, In w ws -> w <> u "--") -> run_words sp (toks ++ LO t s :: r) (map LA ws) os done ps extras = Datatypes.inr e.
Proof.
  intros P L St. assert (St' : forall r ws os done ps extras, (forall w, In w ws -> w <> u "--") -> run_words sp (LO t s :: r) (map LA ws) os done ps extras = Datatypes.inr e).
  { intros r ws os done ps extras H. destruct (group_words false ws done ps extras H) as ([[d p] ex]&G). specialize (St r os d p ex). cbn [run_words] in *. rewrite G. cbn [group_done andthen] in *. exact St. }
  induction L as [|d v ws0 items argv W L (toks&E&R)|w items argv Hw L (toks&E&R)].
  - exists []. split; [intro rest; cbn [app]; destruct (letters_of sp rest); reflexivity|]. intros. apply St'. assumption.
  - destruct (writes_reads sp d v ws0 P W) as (t0&E0&R0). exists (t0 ++ toks). split.
    + intro rest. rewrite <- app_assoc, E0, E, andthen_andthen. apply andthen_ext. intro l. cbn [andthen]. rewrite <- app_assoc. reflexivity.
    + intros r ws os done ps extras H. rewrite <- app_assoc, R0. destruct (group_words false ws done ps extras H) as ([[d' p] ex]&G). rewrite G. cbn [andthen]. apply (R r [] _ d' p ex). intros w [].
  - exists (LA w :: toks). split.
    + intro rest. cbn [app]. rewrite (letters_word sp w _ P Hw), E, andthen_andthen. reflexivity.
    + intros r ws os done ps extras H. cbn [app run_words]. replace (map LA ws ++ [LA w]) with (map LA (ws ++ [w])) by (rewrite map_app; reflexivity). apply R. intros x Hx. apply in_app_or in Hx as [Hx|[<-|[]]]; [exact (H x Hx)|exact (plain_not_dashes _ Hw)].
Qed.
Lemma lays_reads sp items argv : proper sp -> lays sp items argv -> exists toks, letters_of sp argv = inl toks.
Proof. intros P L. destruct (lays_letters sp items argv P L) as (toks&E&_). exists toks. exact E. Qed.
(** -h, --help or an abbreviation of it, after and before anything regular: the help is shown, and nothing else happens, even if words are missing or
    too many. *)
Theorem C98_help : forall sp d h items argv items' argv', proper sp -> stands_for sp h (d, KHelp) -> lays sp items argv -> lays sp items' argv' -> parse_command sp (argv ++ h :: argv') = Datatypes.inr SHelp.
Proof.
  intros sp d h items argv items' argv' P S L L'. destruct (word_alone sp h _ P S) as (full&sep&E). destruct (lays_reads sp _ _ P L') as (t'&E').
  destruct (stops_run sp items argv (Found (Some (d, KHelp)) full sep None) h SHelp P L) as (toks&E1&R1); [reflexivity|].
  unfold parse_command. rewrite E1, (letters_option sp h _ argv' E (stands_not_dashes sp h _ P S)), E'. cbn [andthen]. change (@nil letter) with (map LA []). rewrite R1; [reflexivity|intros w []].
Qed.
Print Assumptions C98_help.
(** A value that is not among the choices of its option. *)
Theorem C98_bad_choice : forall sp d n l v ws items argv items' argv', proper sp -> stands_for sp n (d, KValue (Some l)) -> ~ In v l -> v <> u "--" -> (ws = [n; v] /\ ~ looks_like_option v \/ ws = [n ++ u "=" ++ v]) ->
  lays sp items argv -> lays sp items' argv' -> parse_command sp (argv ++ ws ++ argv') = Datatypes.inr SUsage.
Proof.
  intros sp d n l v ws items argv items' argv' P S Hv Hd Hw L L'. destruct (lays_reads sp _ _ P L') as (t'&E').
  assert (B : forall os, store (d, KValue (Some l)) v os = Datatypes.inr SUsage) by (intro os; unfold store; cbn [snd]; rewrite (proj2 (str_eqb_neq v (u "--")) Hd), (proj2 (memb_nIn v l) Hv); reflexivity).
  destruct Hw as [(->&Hp) | ->].
  - destruct (word_alone sp n _ P S) as (full&sep&E). assert (St : forall r os done ps extras, run_words sp (LO (Found (Some (d, KValue (Some l))) full sep None) n :: LA v :: r) [] os done ps extras = Datatypes.inr SUsage) by (intros; cbn [run_words group_done andthen option_word fd_option fd_explicit plain_option takes snd fst store_flags]; rewrite B; reflexivity).
    assert (G : exists toks, (forall rest, letters_of sp (argv ++ rest) = andthen (letters_of sp rest) (fun l => inl (toks ++ l))) /\
      forall r ws os done ps extras, (forall w, In w ws -> w <> u "--") -> run_words sp (toks ++ LO (Found (Some (d, KValue (Some l))) full sep None) n :: LA v :: r) (map LA ws) os done ps extras = Datatypes.inr SUsage).
    { assert (St' : forall r ws os done ps extras, (forall w, In w ws -> w <> u "--") -> run_words sp (LO (Found (Some (d, KValue (Some l))) full sep None) n :: LA v :: r) (map LA ws) os done ps extras = Datatypes.inr SUsage).
      { intros r ws os done ps extras H. destruct (group_words false ws done ps extras H) as ([[d0 p] ex]&G). specialize (St r os d0 p ex). cbn [run_words] in *. rewrite G. cbn [group_done andthen] in *. exact St. }
      clear St. induction L as [|d0 v0 ws0 items argv W L IH|w items argv Hw L IH].
      - exists []. split; [intro rest; cbn [app]; destruct (letters_of sp rest); reflexivity|]. intros. apply St'. assumption.
      - destruct IH as (toks&E2&R2). destruct (writes_reads sp d0 v0 ws0 P W) as (t0&E0&R0). exists (t0 ++ toks). split.
        + intro rest. rewrite <- app_assoc, E0, E2, andthen_andthen. apply andthen_ext. intro l0. cbn [andthen]. rewrite <- app_assoc. reflexivity.
        + intros r ws os done ps extras H. rewrite <- app_assoc, R0. destruct (group_words false ws done ps extras H) as ([[d' p] ex]&G). rewrite G. cbn [andthen]. apply (R2 r [] _ d' p ex). intros w [].
      - destruct IH as (toks&E2&R2). exists (LA w :: toks). split.
        + intro rest. cbn [app]. rewrite (letters_word sp w _ P Hw), E2, andthen_andthen. reflexivity.
        + intros r ws os done ps extras H. cbn [app run_words]. replace (map LA ws ++ [LA w]) with (map LA (ws ++ [w])) by (rewrite map_app; reflexivity). apply R2. intros x Hx. apply in_app_or in Hx as [Hx|[<-|[]]]; [exact (H x Hx)|exact (plain_not_dashes _ Hw)]. }
    destruct G as (toks&E1&R1). unfold parse_command. rewrite E1. cbn [app]. rewrite (letters_option sp n _ (v :: argv') E (stands_not_dashes sp n _ P S)), (letters_word sp v argv' P Hp), E'. cbn [andthen]. change (@nil letter) with (map LA []). rewrite R1; [reflexivity|intros w []].
  - destruct (word_equals sp n _ v P S) as (full&E). destruct (stops_run sp items argv (Found (Some (d, KValue (Some l))) full (u "=") (Some v)) (n ++ u "=" ++ v) SUsage P L) as (toks&E1&R1).
    { intros. cbn [run_words group_done andthen option_word fd_option fd_explicit]. destruct v as [|c0 v]; cbn [explicit_option takes snd fst andthen store_flags]; rewrite B; reflexivity. }
    assert (Nd : n ++ u "=" ++ v <> u "--"). { intro X. assert (In 61%N (u "--")) as [C|[C|[]]] by (rewrite <- X; apply in_or_app; right; left; reflexivity); discriminate C. }
    unfold parse_command. rewrite E1. cbn [app]. rewrite (letters_option sp _ _ argv' E Nd), E'. cbn [andthen]. change (@nil letter) with (map LA []). rewrite R1; [reflexivity|intros w []].
Qed.
Print Assumptions C98_bad_choice.
(** After -- a file may have any name, also one that looks like an option. *)
Theorem C98_dashes : forall sp f items argv, proper sp -> sp_positionals sp = [One] -> lays sp items argv -> words_of items = [] -> parse_command sp (argv ++ [u "--"; f]) = inl (set_all (settings_of items) [], [[f]]).
Proof.
  intros sp f items argv P Ep L N. destruct (options_run sp items argv P L N) as (toks&E&R). unfold parse_command. rewrite E. cbn [letters_of]. rewrite str_eqb_refl. cbn [andthen map]. rewrite Ep, R. cbn [run_words app group_done fill take_one drop_dashes]. rewrite str_eqb_refl. reflexivity.
Qed.
Print Assumptions C98_dashes.

(** ** What is accepted comes from the command line *)
Definition from_line (argv : list str) (done : list (list str)) : Prop := forall vs v, In vs done -> In v vs -> In v argv.
Lemma drop_incl l : incl (drop_dashes l) l.
Proof. induction l as [|x l IH]; intros y Hy; cbn [drop_dashes] in Hy; [destruct Hy|]. destruct (str_eqb x (u "--")); [right; exact Hy|]. destruct Hy as [<-|Hy]; [left; reflexivity|right; apply IH, Hy]. Qed.
Definition all_from (argv : list str) (l : list letter) : Prop := forall t, In t l -> In (word_of t) argv.
Lemma all_words argv l : all_from argv l -> forall v, In v (map word_of l) -> In v argv.
Proof. intros H v Hv. apply in_map_iff in Hv as (t&<-&Ht). apply H, Ht. Qed.
Lemma done_snoc argv done vs : from_line argv done -> (forall v, In v vs -> In v argv) -> from_line argv (done ++ [vs]).
Proof. intros H Hv ws w Hw Hi. apply in_app_or in Hw as [Hw|[<-|[]]]; [exact (H ws w Hw Hi)|exact (Hv w Hi)]. Qed.
Lemma fill_from argv ps : forall group done d p r, all_from argv group -> from_line argv done -> fill ps group done = inl (d, p, r) -> from_line argv d /\ (length d + length p = length done + length ps)%nat.
Proof.
  induction ps as [|x ps IH]; intros group done d p r Hg Hd H; cbn [fill] in H; [injection H as <- <- <-; split; [exact Hd|reflexivity]|].
  assert (St : forall rest vs, all_from argv rest -> (forall v, In v vs -> In v argv) -> fill ps rest (done ++ [vs]) = inl (d, p, r) -> from_line argv d /\ (length d + length p = length done + S (length ps))%nat).
  { intros rest vs Hr Hvs Hf. destruct (IH _ _ _ _ _ Hr (done_snoc argv done vs Hd Hvs) Hf) as (G1&G2). split; [exact G1|]. rewrite app_length in G2. cbn [length] in G2. lia. }
  destruct x.
  - destruct (take_one group) as [[args rest]|] eqn:T; [|injection H as <- <- <-; split; [exact Hd|reflexivity]].
    assert (G : forall v, In v args -> In v argv) by (assert (X : forall v, In v args -> In v (map word_of group)); [clear -T; intros v Hv; destruct group as [|[| |] [|[| |] ?]]; cbn [take_one] in T; try discriminate T; injection T as <- <-; cbn [map word_of] in *; cbn [In] in *; tauto|intros v Hv; exact (all_words argv group Hg v (X v Hv))]).
    assert (G' : all_from argv rest) by (intros t Ht; apply Hg; clear -T Ht; destruct group as [|[| |] [|[| |] ?]]; cbn [take_one] in T; try discriminate T; injection T as <- <-; cbn [In] in *; tauto).
    destruct (drop_dashes args) as [|v [|v2 l]] eqn:D; try discriminate H. apply (St rest [v] G'); [|exact H]. intros y [<-|[]]. apply G, drop_incl. rewrite D. left. reflexivity.
  - destruct (existsb is_word group); [|injection H as <- <- <-; split; [exact Hd|reflexivity]]. apply (St [] _ (fun t X => match X with end)) in H; [exact H|]. intros v Hv. apply drop_incl in Hv. exact (all_words argv group Hg v Hv).
  - apply (St [] _ (fun t X => match X with end)) in H; [exact H|]. intros v Hv. apply drop_incl in Hv. exact (all_words argv group Hg v Hv).
Qed.
Lemma group_from argv final group done ps extras d p e : all_from argv group -> from_line argv done -> group_done final group done ps extras = inl (d, p, e) -> from_line argv d /\ (length d + length p = length done + length ps)%nat.
Proof.
  intros Hg Hd H. unfold group_done in H. assert (K : andthen (fill ps group done) (fun '(done, ps, rest) => inl (done, ps, extras ++ map word_of rest)) = inl (d, p, e) -> from_line argv d /\ (length d + length p = length done + length ps)%nat).
  { intro K. destruct (fill ps group done) as [[[d0 p0] r0]|] eqn:F; cbn [andthen] in K; [|discriminate K]. injection K as <- <- <-. exact (fill_from argv ps group done d0 p0 r0 Hg Hd F). }
  destruct group, final; try (exact (K H)). injection H as <- <- <-. split; [exact Hd|reflexivity].
Qed.
Lemma run_from sp argv : forall n toks, (length toks <= n)%nat -> forall group os done ps extras os' d p e, all_from argv toks -> all_from argv group -> from_line argv done -> run_words sp toks group os done ps extras = inl (os', d, p, e) -> from_line argv d /\ (length d + length p = length done + length ps)%nat.
Proof.
  induction n as [|n IH]; intros [|t r] Hn group os done ps extras os' d p e Ht Hg Hd H; cbn [length] in Hn; try lia; cbn [run_words] in H.
  - destruct (group_done true group done ps extras) as [[[d0 p0] e0]|] eqn:G; cbn [andthen] in H; [|discriminate H]. injection H as <- <- <- <-. exact (group_from _ _ _ _ _ _ _ _ _ Hg Hd G).
  - destruct (group_done true group done ps extras) as [[[d0 p0] e0]|] eqn:G; cbn [andthen] in H; [|discriminate H]. injection H as <- <- <- <-. exact (group_from _ _ _ _ _ _ _ _ _ Hg Hd G).
  - assert (Hr : all_from argv r) by (intros x Hx; apply Ht; right; exact Hx). assert (H0 : all_from argv []) by (intros x []).
    assert (K1 : all_from argv (group ++ [t])) by (intros x Hx; apply in_app_or in Hx as [Hx|[<-|[]]]; [exact (Hg x Hx)|apply Ht; left; reflexivity]).
    destruct t as [t s|s|]; [|apply (IH r ltac:(lia) _ _ _ _ _ _ _ _ _ Hr K1 Hd H)|apply (IH r ltac:(lia) _ _ _ _ _ _ _ _ _ Hr K1 Hd H)].
    destruct (group_done false group done ps extras) as [[[d0 p0] e0]|] eqn:G; cbn [andthen] in H; [|discriminate H]. destruct (group_from _ _ _ _ _ _ _ _ _ Hg Hd G) as (G1&G2). rewrite <- G2.
    destruct (option_word sp t s) as [[fl en]|]; cbn [andthen fst snd] in H; [|discriminate H]. destruct en as [|a v|a|y].
    + destruct (store_flags fl os); cbn [andthen] in H; [|discriminate H]. exact (IH r ltac:(lia) _ _ _ _ _ _ _ _ _ Hr H0 G1 H).
    + destruct (store_flags fl os); cbn [andthen] in H; [|discriminate H]. destruct (store a v _); cbn [andthen] in H; [|discriminate H]. exact (IH r ltac:(lia) _ _ _ _ _ _ _ _ _ Hr H0 G1 H).
    + destruct r as [|[| |] r']; try discriminate H. destruct (store_flags fl os); cbn [andthen] in H; [|discriminate H]. destruct (store a s0 _); cbn [andthen] in H; [|discriminate H]. cbn [length] in Hn. refine (IH r' ltac:(lia) _ _ _ _ _ _ _ _ _ _ H0 G1 H). intros x Hx. apply Hr. right. exact Hx.
    + destruct (store_flags fl os); cbn [andthen] in H; [|discriminate H]. exact (IH r ltac:(lia) _ _ _ _ _ _ _ _ _ Hr H0 G1 H).
Qed.
(** Whatever the command line: every positional of the parser gets its words, and they are words of the command line. *)
Theorem C98_accepted : forall sp argv os vals, parse_command sp argv = inl (os, vals) -> length vals = length (sp_positionals sp) /\ forall vs v, In vs vals -> In v vs -> In v argv.
Proof.
  intros sp argv os vals H. unfold parse_command in H. destruct (letters_of sp argv) as [toks|] eqn:El; cbn [andthen] in H; [|discriminate H]. destruct (run_words sp toks [] [] [] (sp_positionals sp) []) as [[[[os' d] p] e]|] eqn:Er; cbn [andthen] in H; [|discriminate H]. destruct p; [|discriminate H]. destruct e; [|discriminate H]. injection H as <- <-.
  assert (T : all_from argv toks).
  { clear Er. revert toks El. induction argv as [|s argv IH]; intros toks El; cbn [letters_of] in El; [injection El as <-; intros t []|]. destruct (str_eqb_spec s (u "--")) as [->|].
    - injection El as <-. intros t [<-|Ht]; [left; reflexivity|]. apply in_map_iff in Ht as (x&<-&Hx). right. exact Hx.
    - destruct (as_option sp s) as [o|]; cbn [andthen] in El; [|discriminate El]. destruct (letters_of sp argv) as [l|]; cbn [andthen] in El; [|discriminate El]. injection El as <-. intros t [<-|Ht]; [left; destruct o; reflexivity|right; exact (IH l eq_refl t Ht)]. }
  assert (Z1 : all_from argv []) by (intros t []). assert (Z2 : from_line argv []) by (intros vs v []).
  destruct (run_from sp argv (length toks) toks (le_n _) _ _ _ _ _ _ _ _ _ T Z1 Z2 Er) as (G1&G2). split; [cbn [length] in G2; lia|exact G1].
Qed.
Print Assumptions C98_accepted.
(** When a command line is refused no file is read and none is written, and nothing but the help is printed. *)
Definition only_stopped (help : str) (p : process) : Prop := p_reads p = [] /\ (p_stdout p = [] /\ In (p_status p) [1; 2] \/ p_stdout p = help /\ p_status p = 0).
Theorem C98_refused : forall s rn list_str help argv fs server git sha1 tar w,
  (forall main, (forall x, parse_command one_file argv <> inl x) -> only_stopped help (file_script main help argv)) /\
  ((forall x, parse_command irvtally_spec argv <> inl x) -> only_stopped help (irvtally_script s rn help argv)) /\
  ((forall x, parse_command copedot_spec argv <> inl x) -> only_stopped help (copedot_script s rn help argv)) /\
  ((forall x, parse_command core_spec argv <> inl x) -> only_stopped help (core_script list_str help argv)) /\
  ((forall x, parse_command sftxt_spec argv <> inl x) -> exists out st, sftxt_script fs help argv = (fs, out, st) /\ only_stopped help (Process [] out st)) /\
  ((forall x, parse_command fetchmgr_spec argv <> inl x) -> In (fetchmgr_script server git sha1 tar help argv w) [(w, 1); (w, 2); (with_events w [EPrint help], 0)]).
Proof.
  intros s rn list_str help argv fs server git sha1 tar w.
  assert (K : forall e, only_stopped help (stop_process help e)) by (intros []; split; try reflexivity; cbn; tauto).
  split; [|split; [|split; [|split; [|split]]]].
  - intros main H. unfold file_script. destruct (parse_command one_file argv) as [x|e]; [destruct (H x eq_refl)|apply K].
  - intros H. unfold irvtally_script. destruct (parse_command irvtally_spec argv) as [x|e]; [destruct (H x eq_refl)|apply K].
  - intros H. unfold copedot_script. destruct (parse_command copedot_spec argv) as [x|e]; [destruct (H x eq_refl)|apply K].
  - intros H. unfold core_script. destruct (parse_command core_spec argv) as [x|e]; [destruct (H x eq_refl)|apply K].
  - intros H. unfold sftxt_script. destruct (parse_command sftxt_spec argv) as [x|e]; [destruct (H x eq_refl)|]. eexists. eexists. split; [reflexivity|]. destruct (K e) as (_&G). split; [reflexivity|exact G].
  - intros H. unfold fetchmgr_script. destruct (parse_command fetchmgr_spec argv) as [x|e]; [destruct (H x eq_refl)|]. destruct e; cbn; tauto.
Qed.
Print Assumptions C98_refused.

(** ** Samples *)
Definition line (l : list string) : list str := map u l.
(** sftxt.py --outf out.txt m.txt -ox --consolidate b.txt: the second -o counts. *)
Example C98_lays : lays sftxt_spec [Setting (u "outfile") (VStr (u "out.txt")); Word (u "m.txt"); Setting (u "outfile") (VStr (u "x")); Setting (u "consolidate") VTrue; Word (u "b.txt")]
  (line ["--outf"; "out.txt"; "m.txt"; "-ox"; "--consolidate"; "b.txt"]%string).
Proof.
  apply (lays_setting sftxt_spec _ _ [u "--outf"; u "out.txt"] _ (line ["m.txt"; "-ox"; "--consolidate"; "b.txt"]%string)).
  - apply (two_words sftxt_spec (u "outfile") (u "--outf") None); [right|exact I|intros (c&r&H); discriminate H]. exists 111%N, (u "utf"), (u "ile"). split; [reflexivity|]. split; [cbn; tauto|].
    intros rest' b H. cbn [In sftxt_spec sp_options with_help] in H. repeat (destruct H as [H|H]; [first [discriminate H|injection H as H _; symmetry; exact H]|]). destruct H.
  - apply lays_word; [intros (c&r&H); discriminate H|]. apply (lays_setting sftxt_spec _ _ [[45%N; 111%N] ++ u "x"] _ (line ["--consolidate"; "b.txt"]%string)).
    + apply (attached sftxt_spec (u "outfile") 111%N None); [cbn; tauto|exact I|discriminate|discriminate|discriminate].
    + apply (lays_setting sftxt_spec _ _ [u "--consolidate"] _ [u "b.txt"]); [constructor; left; cbn; tauto|]. apply lays_word; [intros (c&r&H); discriminate H|constructor].
Qed.
Example C98_parsers : proper one_file /\ proper irvtally_spec /\ proper copedot_spec /\ proper core_spec /\ proper sftxt_spec /\ proper fetchmgr_spec.
Proof. repeat split; first [apply proper_one_file|apply proper_irvtally|apply proper_copedot|apply proper_core|apply proper_sftxt|apply proper_fetchmgr]. Qed.
Example C98_samples :
  parse_command sftxt_spec (line ["--outf"; "out.txt"; "m.txt"; "-ox"; "--consolidate"; "b.txt"]%string) = inl ([(u "outfile", VStr (u "x")); (u "consolidate", VTrue)], [[u "m.txt"]; [u "b.txt"]]) /\
  parse_command sftxt_spec (line ["--out"; "x"; "m.txt"; "b.txt"]%string) = Datatypes.inr SUsage /\
  parse_command sftxt_spec (line ["--"; "m.txt"; "--"]%string) = Datatypes.inr SCrash /\
  parse_command irvtally_spec (line ["-j"; "x.abif"]%string) = inl ([(u "json", VTrue)], [[u "x.abif"]]) /\
  parse_command irvtally_spec (line ["x.abif"; "--bogus"]%string) = Datatypes.inr SUsage /\
  parse_command copedot_spec (line ["--outfmt=png"; "x.abif"]%string) = Datatypes.inr SUsage /\
  parse_command core_spec (line ["A>B"; "-f"; "emptyish"; "C"]%string) = Datatypes.inr SUsage /\
  parse_command fetchmgr_spec (line ["-a"; "spec.json"]%string) = inl ([(u "abif", VStr (u "spec.json"))], [[]]) /\
  unknown_option irvtally_spec (u "--bogus").
Proof.
  do 8 (split; [reflexivity|]). split; [exists 45%N, (u "bogus"); reflexivity|]. split; [discriminate|]. split; [intro H; cbn in H; repeat (destruct H as [H|H]; [discriminate H|]); destruct H|]. split; [reflexivity|].
  intros n a H. cbn [In irvtally_spec sp_options with_help] in H. repeat (destruct H as [H|H]; [injection H as <- <-; split; [reflexivity|intro; first [reflexivity|discriminate]]|]). destruct H.
Qed.
