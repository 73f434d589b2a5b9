(** * PropsScriptSpelled: C98, the options of the scripts as they are spelled *)

From Coq Require Import Lia.
From Verif Require Import PyBase PyFacts Jabmod IrvModel ScoreModel TextFacts ResultsJson HtmlModel CliModel ArgvModel ArgparseModel ArgparseFacts ScriptsModel SftxtMainModel UrlText DebtallyModel PosixModel ExtfileModel SpecfileModel PropsSpecfile ScriptArgvModel PropsScriptArgv.
Local Open Scope Z_scope.

(** A switch takes no value: with =VALUE, even an empty one, the command line is refused. *)
Theorem C98_switch_value : forall sp d k n v items argv items' argv', proper sp -> stands_for sp n (d, k) -> k = KFlag \/ k = KHelp -> lays sp items argv -> lays sp items' argv' ->
  parse_command sp (argv ++ (n ++ u "=" ++ v) :: argv') = Datatypes.inr SUsage.
Proof.
  intros sp d k n v items argv items' argv' P St Hk L L'. destruct (lays_reads sp _ _ P L') as (t'&E'). destruct (word_equals sp n _ v P St) as (full&E).
  destruct (stops_run sp items argv (Found (Some (d, k)) full (u "=") (Some v)) (n ++ u "=" ++ v) SUsage P L) as (toks&E1&R1).
  { intros. cbn [run_words group_done andthen option_word fd_option fd_explicit]. destruct Hk as [-> | ->], v as [|c0 v]; cbn [explicit_option takes snd fst fd_string fd_sep andthen]; try reflexivity; destruct (is_long full); reflexivity. }
  assert (Nd : n ++ u "=" ++ v <> u "--"). { intro X. assert (In 61%N (u "--")) as [C|[C|[]]] by (rewrite <- X; apply in_or_app; right; left; reflexivity); discriminate C. }
  unfold parse_command. pose proof (letters_option sp _ _ argv' E Nd) as X. rewrite E1. match goal with |- context [letters_of sp ?l] => change (letters_of sp l) with (letters_of sp ((n ++ u "=" ++ v) :: argv')) end. match type of X with ?a = _ => change (letters_of sp ((n ++ u "=" ++ v) :: argv')) with a end. rewrite X, E'. cbn [andthen]. change (@nil letter) with (map LA []). rewrite R1; [reflexivity|intros w []].
Qed.
Print Assumptions C98_switch_value.

(** ** The options by name *)
Lemma one_setting sp d v ws f l r : writes sp d v ws -> ~ looks_like_option f -> l = ws ++ [f] /\ r = [Setting d v; Word f] \/ l = f :: ws /\ r = [Word f; Setting d v] -> lays sp r l.
Proof.
  intros W Hf [(->&->)|(->&->)].
  - constructor; [exact W|]. apply lays_word; [exact Hf|constructor].
  - apply lays_word; [exact Hf|]. rewrite <- (app_nil_r ws). constructor; [exact W|constructor].
Qed.
(** irvtally.py FILE, and with -j or --json before or after the file. *)
Theorem C98_irvtally_spelled : forall s rn help f, ~ looks_like_option f ->
  irvtally_script s rn help [f] = ran (irvtally_main s rn false f) /\
  forall n argv, In n [u "-j"; u "--json"] -> In argv [[n; f]; [f; n]] -> irvtally_script s rn help argv = ran (irvtally_main s rn true f).
Proof.
  intros s rn help f Hf. split.
  - rewrite (C98_irvtally s rn help [Word f] [f]); [reflexivity|]. apply lays_word; [exact Hf|constructor].
  - intros n argv Hn Ha. assert (W : writes irvtally_spec (u "json") VTrue [n]) by (constructor; left; destruct Hn as [<- | [<- | []]]; cbn; tauto).
    destruct Ha as [<- | [<- | []]]; [rewrite (C98_irvtally s rn help [Setting (u "json") VTrue; Word f])|rewrite (C98_irvtally s rn help [Word f; Setting (u "json") VTrue])]; try reflexivity; (eapply one_setting; [exact W|exact Hf|]); [left|right]; split; reflexivity.
Qed.
Print Assumptions C98_irvtally_spelled.
(** copedot.py FILE is svg; --outfmt takes dot, json and svg, before or after the file, and nothing else. *)
Theorem C98_copedot_spelled : forall s rn help f, ~ looks_like_option f ->
  copedot_script s rn help [f] = ran (copedot_main s rn (u "svg") f) /\
  forall fmt argv, ~ looks_like_option fmt -> In argv [[u "--outfmt"; fmt; f]; [f; u "--outfmt"; fmt]; [u "--outfmt=" ++ fmt; f]; [f; u "--outfmt=" ++ fmt]] ->
    copedot_script s rn help argv = if memb fmt [u "dot"; u "json"; u "svg"] then ran (copedot_main s rn fmt f) else Process [] [] 2.
Proof.
  intros s rn help f Hf. split; [rewrite (C98_copedot s rn help [Word f] [f]); [reflexivity|]; apply lays_word; [exact Hf|constructor]|].
  intros fmt argv Hp Ha. assert (Sf : stands_for copedot_spec (u "--outfmt") (u "outfmt", KValue (Some [u "dot"; u "json"; u "svg"]))) by (left; cbn; tauto). assert (Hd : fmt <> u "--") by (apply plain_not_dashes, Hp).
  assert (Lf : lays copedot_spec [Word f] [f]) by (apply lays_word; [exact Hf|constructor]).
  destruct (memb fmt [u "dot"; u "json"; u "svg"]) eqn:Em.
  - apply memb_In in Em. assert (W1 : writes copedot_spec (u "outfmt") (VStr fmt) [u "--outfmt"; fmt]) by (eapply two_words; eassumption). assert (W2 : writes copedot_spec (u "outfmt") (VStr fmt) [u "--outfmt=" ++ fmt]) by (exact (with_equals copedot_spec (u "outfmt") (u "--outfmt") _ fmt Sf Em Hd)).
    assert (G : forall ws argv, writes copedot_spec (u "outfmt") (VStr fmt) ws -> argv = ws ++ [f] \/ argv = f :: ws -> copedot_script s rn help argv = ran (copedot_main s rn fmt f)).
    { intros ws argv' W [-> | ->]; [rewrite (C98_copedot s rn help [Setting (u "outfmt") (VStr fmt); Word f])|rewrite (C98_copedot s rn help [Word f; Setting (u "outfmt") (VStr fmt)])]; try reflexivity; (eapply one_setting; [exact W|exact Hf|]); [left|right]; split; reflexivity. }
    destruct Ha as [<- | [<- | [<- | [<- | []]]]]; [apply (G _ _ W1); left|apply (G _ _ W1); right|apply (G _ _ W2); left|apply (G _ _ W2); right]; reflexivity.
  - assert (Hv : ~ In fmt [u "dot"; u "json"; u "svg"]) by (apply memb_nIn, Em).
    assert (G : forall ws a1 a2 i1 i2, (ws = [u "--outfmt"; fmt] /\ ~ looks_like_option fmt \/ ws = [u "--outfmt" ++ u "=" ++ fmt]) -> lays copedot_spec i1 a1 -> lays copedot_spec i2 a2 -> copedot_script s rn help (a1 ++ ws ++ a2) = Process [] [] 2).
    { intros ws a1 a2 i1 i2 Hw L1 L2. unfold copedot_script. rewrite (C98_bad_choice copedot_spec _ _ _ _ ws i1 a1 i2 a2 proper_copedot Sf Hv Hd Hw L1 L2). reflexivity. }
    destruct Ha as [<- | [<- | [<- | [<- | []]]]].
    + exact (G [u "--outfmt"; fmt] [] [f] [] _ (or_introl (conj eq_refl Hp)) (lays_nil _) Lf).
    + exact (G [u "--outfmt"; fmt] [f] [] _ [] (or_introl (conj eq_refl Hp)) Lf (lays_nil _)).
    + exact (G [u "--outfmt=" ++ fmt] [] [f] [] _ (or_intror eq_refl) (lays_nil _) Lf).
    + exact (G [u "--outfmt=" ++ fmt] [f] [] _ [] (or_intror eq_refl) Lf (lays_nil _)).
Qed.
Print Assumptions C98_copedot_spelled.
(** sftxt.py LOOKUP IMAGE with all its options; -o and --outfile are the same. *)
Theorem C98_sftxt_spelled : forall fs help l i o c f out, (forall w, In w [l; i; o; c; f] -> ~ looks_like_option w) -> In out [u "-o"; u "--outfile"] ->
  let run args := let r := sftxt_main fs args in (so_files r, so_stdout r, match so_exn r with None => 0 | Some _ => 1 end) in
  sftxt_script fs help [l; i] = run (SfArgs false l i None None (u "json") false) /\
  sftxt_script fs help [l; i; out; o] = run (SfArgs false l i (Some o) None (u "json") false) /\
  sftxt_script fs help [l; i; u "--contestid"; c] = run (SfArgs false l i None (Some c) (u "json") false) /\
  sftxt_script fs help [l; i; u "--outputformat"; f] = run (SfArgs false l i None None f false) /\
  sftxt_script fs help [l; i; u "--imagelines"] = run (SfArgs true l i None None (u "json") false) /\
  sftxt_script fs help [l; i; u "--consolidate"] = run (SfArgs false l i None None (u "json") true) /\
  sftxt_script fs help [u "--imagelines"; out; o; l; u "--contestid"; c; i; u "--outputformat"; f; u "--consolidate"] = run (SfArgs true l i (Some o) (Some c) f true).
Proof.
  intros fs help l i o c f out Hw Ho run. assert (Hl : ~ looks_like_option l) by (apply Hw; cbn; tauto). assert (Hi : ~ looks_like_option i) by (apply Hw; cbn; tauto). assert (Hoo : ~ looks_like_option o) by (apply Hw; cbn; tauto). assert (Hc : ~ looks_like_option c) by (apply Hw; cbn; tauto). assert (Hf : ~ looks_like_option f) by (apply Hw; cbn; tauto).
  assert (Wo : writes sftxt_spec (u "outfile") (VStr o) [out; o]) by (apply (two_words sftxt_spec _ _ None); [left; destruct Ho as [<- | [<- | []]]; cbn; tauto|exact I|exact Hoo]).
  assert (Wc : writes sftxt_spec (u "contestid") (VStr c) [u "--contestid"; c]) by (apply (two_words sftxt_spec _ _ None); [left; cbn; tauto|exact I|exact Hc]).
  assert (Wf : writes sftxt_spec (u "outputformat") (VStr f) [u "--outputformat"; f]) by (apply (two_words sftxt_spec _ _ None); [left; cbn; tauto|exact I|exact Hf]).
  assert (Wi : writes sftxt_spec (u "imagelines") VTrue [u "--imagelines"]) by (constructor; left; cbn; tauto).
  assert (Wk : writes sftxt_spec (u "consolidate") VTrue [u "--consolidate"]) by (constructor; left; cbn; tauto).
  assert (L0 : lays sftxt_spec [] []) by constructor.
  assert (G : forall d v ws, writes sftxt_spec d v ws -> lays sftxt_spec [Word l; Word i; Setting d v] (l :: i :: ws)).
  { intros d v ws W. apply lays_word; [exact Hl|]. apply lays_word; [exact Hi|]. pose proof (lays_setting sftxt_spec d v ws [] [] W L0) as X. rewrite app_nil_r in X. exact X. }
  split; [rewrite (C98_sftxt fs help [Word l; Word i] [l; i]); [reflexivity|]; apply lays_word; [exact Hl|]; apply lays_word; [exact Hi|exact L0]|].
  split; [rewrite (C98_sftxt fs help _ _ (G _ _ _ Wo)); reflexivity|]. split; [rewrite (C98_sftxt fs help _ _ (G _ _ _ Wc)); reflexivity|]. split; [rewrite (C98_sftxt fs help _ _ (G _ _ _ Wf)); reflexivity|].
  split; [rewrite (C98_sftxt fs help _ _ (G _ _ _ Wi)); reflexivity|]. split; [rewrite (C98_sftxt fs help _ _ (G _ _ _ Wk)); reflexivity|].
  rewrite (C98_sftxt fs help [Setting (u "imagelines") VTrue; Setting (u "outfile") (VStr o); Word l; Setting (u "contestid") (VStr c); Word i; Setting (u "outputformat") (VStr f); Setting (u "consolidate") VTrue]); [reflexivity|].
  apply (lays_setting sftxt_spec _ _ [u "--imagelines"]); [exact Wi|]. apply (lays_setting sftxt_spec _ _ [out; o]); [exact Wo|]. apply lays_word; [exact Hl|]. apply (lays_setting sftxt_spec _ _ [u "--contestid"; c]); [exact Wc|]. apply lays_word; [exact Hi|].
  apply (lays_setting sftxt_spec _ _ [u "--outputformat"; f]); [exact Wf|]. apply (lays_setting sftxt_spec _ _ [u "--consolidate"]); [exact Wk|exact L0].
Qed.
Print Assumptions C98_sftxt_spelled.
(** core.py: -f or --func with one of four names, and pref_to_dict without. *)
Theorem C98_core_spelled : forall list_str help ws n fn, ws <> [] -> (forall w, In w ws -> ~ looks_like_option w) -> In n [u "-f"; u "--func"] -> ~ looks_like_option fn ->
  core_script list_str help ws = ran (core_main list_str (u "pref_to_dict") ws) /\
  core_script list_str help ([n; fn] ++ ws) = if memb fn [u "pref_to_dict"; u "process_abif_prefline"; u "emptyish"; u "modify_jabmod"] then ran (core_main list_str fn ws) else Process [] [] 2.
Proof.
  intros list_str help ws n fn Hne Hw Hn Hf. split.
  - pose proof (C98_core list_str help [] [] ws [] [] (lays_nil _) (lays_nil _) eq_refl eq_refl Hw) as E. cbn [app] in E. rewrite app_nil_r in E. rewrite E. destruct ws; [congruence|reflexivity].
  - set (names := [u "pref_to_dict"; u "process_abif_prefline"; u "emptyish"; u "modify_jabmod"]). assert (Sf : stands_for core_spec n (u "func", KValue (Some names))) by (left; destruct Hn as [<- | [<- | []]]; cbn; tauto).
    destruct (memb fn names) eqn:Em.
    + apply memb_In in Em. assert (W : writes core_spec (u "func") (VStr fn) [n; fn]) by (eapply two_words; eassumption). pose proof (C98_core list_str help [Setting (u "func") (VStr fn)] ([n; fn] ++ []) ws [] [] (lays_setting _ _ _ _ _ _ W (lays_nil _)) (lays_nil _) eq_refl eq_refl Hw) as E.
      rewrite !app_nil_r in E. rewrite E. destruct ws; [congruence|reflexivity].
    + apply memb_nIn in Em. assert (L : forall l, (forall w, In w l -> ~ looks_like_option w) -> lays core_spec (map Word l) l). { induction l as [|w l IH]; intro H; [constructor|]. apply lays_word; [apply H; left; reflexivity|]. apply IH. intros z Hz. apply H. right. exact Hz. }
      unfold core_script. pose proof (C98_bad_choice core_spec _ _ _ _ [n; fn] [] [] (map Word ws) ws proper_core Sf Em (plain_not_dashes _ Hf) (or_introl (conj eq_refl Hf)) (lays_nil _) (L ws Hw)) as E. cbn [app] in E |- *. rewrite E. reflexivity.
Qed.
Print Assumptions C98_core_spelled.
Example C98_spelled_sample : ~ looks_like_option (u "x.abif") /\ ~ looks_like_option (u "dot") /\ ~ looks_like_option (u "-") /\ stands_for irvtally_spec (u "--js") (u "json", KFlag).
Proof.
  split; [intros (c&r&E); discriminate E|]. split; [intros (c&r&E); discriminate E|]. split; [intros (c&r&E); discriminate E|]. right. exists 106%N, [115%N], (u "on"). split; [reflexivity|]. split; [cbn; tauto|].
  intros rest' b H. cbn [In irvtally_spec sp_options with_help] in H. repeat (destruct H as [H|H]; [first [discriminate H|injection H as H _; symmetry; exact H]|]). destruct H.
Qed.
