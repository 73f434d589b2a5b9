(** * PropsEndingMore: C87, options and endings of runs on files in the other formats *)

From Coq Require Import Lia Permutation.
From Verif Require Import PyBase PyFacts Jabmod PairwiseModel Spec PairwiseFacts PropsPairwise ScoreModel ScoreFacts IrvModel PropsIrv.
From Verif Require Import Regex RegexFacts ParserModel ParserSpec ParserFacts PropsParser UrlText UrlFacts JsonText JsonFacts WriterModel NameqModel TextFacts NameqFacts PropsNameq ConsolidateFacts PropsConvert RoundtripFile RoundtripParsed PropsRoundtrip.
From Verif Require Import PreflibModel DebtallyModel ImportSpec ImportFacts PreflibFacts DebtallyFacts PropsImport SftxtModel SftxtSpec SftxtFacts PropsSftxt SftxtFile PropsSftxtFile.
From Verif Require Import DiagramModel PropsDiagram JsonParse JabmodJson PropsJson PropsChars ResultsJson HtmlModel ConvertModel PropsConvertText CliModel PropsCli PropsCliMore PropsPipe PropsCounts PropsEnding PropsFormats.
Local Open Scope Z_scope.
Local Open Scope res_scope.

(** ** Specification *)
(** The run fails with e: a traceback, nothing on standard output. *)
Definition fails (o : outcome) (e : exn) : Prop := o_ending o = Uncaught e /\ o_stdout o = [].
(** The run prints the output and a newline and ends normally; or it fails, for the reason [complaint] gives. *)
Definition ends_as (o : outcome) (a : args) (m : jabmod) : Prop :=
  match complaint (a_to a) (modifiers a) (if memb (u "consolidate") (modifiers a) then consolidate m else m) with
  | None => o_ending o = Done /\ exists output, o_stdout o = output ++ [10%N]
  | Some e => fails o e
  end.
(** Command lines that differ in --cleanws, --add-scores and -m jcomments only. *)
Definition same_but_reading (a b : args) : Prop :=
  a_input_file b = a_input_file a /\ a_fromfmt b = a_fromfmt a /\ a_to b = a_to a /\ a_width b = a_width a /\ forall x, x <> u "jcomments" -> (In x (modifiers b) <-> In x (modifiers a)).

(** ** The options about reading *)
Lemma render_jcomments s rn to w mods mods' m : (forall x, x <> u "jcomments" -> (In x mods' <-> In x mods)) -> render s rn to w mods' m = render s rn to w mods m.
Proof.
  intro H. assert (E : forall x, u x <> u "jcomments" -> has x mods' = has x mods).
  { intros x Hx. unfold has. specialize (H (u x) Hx). destruct (memb (u x) mods') eqn:E1, (memb (u x) mods) eqn:E2; auto.
    - apply memb_In, H, memb_In in E1. congruence.
    - apply memb_In, H, memb_In in E2. congruence. }
  unfold render, text_sections. cbn [text_output]. rewrite !E by discriminate. reflexivity.
Qed.
Lemma text_output_agree mods mods' secs : (forall nt, In nt secs -> has (fst nt) mods' = has (fst nt) mods) -> text_output mods' secs = text_output mods secs.
Proof.
  induction secs as [|[n t] r IH]; intro H; [reflexivity|]. cbn [text_output]. pose proof (H (n, t) (or_introl eq_refl)) as Hh. cbn [fst] in Hh. rewrite Hh, (IH (fun nt Hn => H nt (or_intror Hn))). reflexivity.
Qed.
Lemma render_as_jcomments none s rn to w mods mods' m : (forall x, x <> u "jcomments" -> (In x mods' <-> In x mods)) -> render_as none s rn to w mods' m = render_as none s rn to w mods m.
Proof.
  intro H. assert (E : forall x, u x <> u "jcomments" -> has x mods' = has x mods).
  { intros x Hx. unfold has. specialize (H (u x) Hx). destruct (memb (u x) mods') eqn:E1, (memb (u x) mods) eqn:E2; auto.
    - apply memb_In, H, memb_In in E1. congruence.
    - apply memb_In, H, memb_In in E2. congruence. }
  destruct none as [|k none]; [exact (render_jcomments s rn to w mods mods' m H)|]. cbn [render_as]. unfold render_unnamed. rewrite !(render_jcomments s rn to w mods mods' m H), !E by discriminate.
  rewrite (text_output_agree mods mods'); [reflexivity|]. intros nt Hn. apply E. apply in_map_iff in Hn as (nt0&<-&Hn). assert (Ef : forall (x : result str), fst (if str_eqb (u (fst nt0)) (u "IRV") then (fst nt0, x) else nt0) = fst nt0) by (intro x; destruct (str_eqb _ _); reflexivity). rewrite Ef.
  unfold text_sections in Hn. cbn [In] in Hn. repeat (destruct Hn as [<-|Hn]; [discriminate|]). destruct Hn.
Qed.
(** For every input format except abif these options change nothing at all: not what is read, printed, or how the run ends. *)
Theorem C87_options : forall s rn a b, same_but_reading a b -> input_format a <> Ok (u "abif") -> main s rn b = main s rn a.
Proof.
  intros s rn a b0 (E1&E2&E3&E4&E5) N. assert (Ef : input_format b0 = input_format a) by (unfold input_format; rewrite E1, E2; reflexivity). assert (Ei : read_input s b0 = read_input s a) by (unfold read_input; rewrite E1; reflexivity).
  unfold main. rewrite Ef, Ei. destruct (input_format a) as [fmt|e]; [|reflexivity]. destruct (memb fmt validinfmts); [|reflexivity]. cbn [negb]. destruct (read_input s a) as (reads&[f|e|input blobs]); try reflexivity.
  assert (L : load s b0 fmt input blobs = load s a fmt input blobs) by (unfold load; destruct (str_eqb_spec fmt (u "abif")); [congruence|reflexivity]). rewrite L. destruct (load s a fmt input blobs) as [m|e]; [|reflexivity].
  assert (C : has "consolidate" (modifiers b0) = has "consolidate" (modifiers a)).
  { unfold has. specialize (E5 (u "consolidate") ltac:(discriminate)). destruct (memb (u "consolidate") (modifiers b0)) eqn:X1, (memb (u "consolidate") (modifiers a)) eqn:X2; auto; [apply memb_In, E5, memb_In in X1|apply memb_In, E5, memb_In in X2]; congruence. }
  rewrite C, E3, E4, (render_as_jcomments _ s rn _ _ _ _ _ E5). reflexivity.
Qed.
Print Assumptions C87_options.

(** ** The characters of what the converters write *)
Lemma text_concat l : (forall x, In x l -> text x) -> text (concat l).
Proof. induction l as [|x l IH]; intro H; [reflexivity|]. cbn [concat]. apply text_app. split; [apply H; left; reflexivity|apply IH; intros y Hy; apply H; right; exact Hy]. Qed.
Lemma text_join sep l : text sep -> (forall x, In x l -> text x) -> text (join sep l).
Proof. intros Hs H. exact (forallb_join scalar sep l Hs H). Qed.
Lemma line_text t l : text t -> In l (splitlines t) -> text l.
Proof. intros H Hl. exact (splitlines_aux_all scalar _ t [] false (le_n _) H eq_refl l Hl). Qed.
Lemma group_text r s g rest n : re_match r s = Some (g, rest) -> text s -> text (group n g).
Proof. intros E H. exact (match_all scalar r s g rest E H n). Qed.
Lemma filter_text p s : text s -> text (filter p s).
Proof. intro H. apply (text_incl _ s); [intros x Hx; apply filter_In in Hx; apply Hx|exact H]. Qed.
Lemma alt_names_text t : text t -> forall n, In n (alt_names t) -> text n.
Proof.
  intros H n Hn. unfold alt_names in Hn. apply in_flat_map in Hn as (l&Hl&Hn). destruct (re_match ALTNAME_REGEX l) as [[g rest]|] eqn:E; [|destruct Hn]. destruct Hn as [<-|[]]. exact (group_text _ _ _ _ 2%nat E (line_text t l H Hl)).
Qed.
Lemma py_index_in {A} (l : list A) i x : py_index l i = Ok x -> In x l.
Proof. unfold py_index. intro H. destruct (_ <? 0); [discriminate|]. destruct (nth_error l _) as [y|] eqn:E; [|discriminate]. cbn in H. apply ok_inj in H. subst y. exact (nth_error_In _ _ E). Qed.
Lemma mapM_In {A B} (f : A -> result B) l ys y : mapM f l = Ok ys -> In y ys -> exists x, In x l /\ f x = Ok y.
Proof. intros E Hy. apply mapM_inv in E. destruct (Forall2_In_r _ _ _ _ E Hy) as (x&Hx&Ex). exists x. auto. Qed.
Lemma ranking_line_text shorts l out : text l -> (forall n, In n shorts -> text n) -> ranking_line shorts l = Ok out -> text out.
Proof.
  intros Hl Hs E. unfold ranking_line in E. destruct (re_match RANKING_REGEX l) as [[g rest]|] eqn:Eg; [|apply ok_inj in E; subst out; reflexivity].
  apply bind_ok in E as (tiers&Et&E). apply ok_inj in E. subst out. apply text_app. split; [exact (group_text _ _ _ _ 1%nat Eg Hl)|]. apply text_app. split; [reflexivity|]. apply text_app. split; [|reflexivity].
  apply text_join; [reflexivity|]. intros x Hx. destruct (mapM_In _ _ _ _ Et Hx) as (p&_&Ep). unfold part_tier in Ep. apply bind_ok in Ep as (toks&Etk&Ep). apply ok_inj in Ep. subst x. apply text_join; [reflexivity|].
  intros y Hy. destruct (mapM_In _ _ _ _ Etk Hy) as (d&_&Ed). apply bind_ok in Ed as (z&_&Ed). exact (Hs y (py_index_in _ _ _ Ed)).
Qed.
Lemma cand_lines_text (l : list (str * str)) : (forall a b, In (a, b) l -> text a /\ text b) -> text (concat (map (fun on => u "=" ++ fst on ++ u ":[" ++ snd on ++ u "]" ++ [10%N]) l)).
Proof.
  intro H. apply text_concat. intros x Hx. apply in_map_iff in Hx as ([a0 b0]&<-&Hx). destruct (H _ _ Hx) as (Ha&Hb). cbn [fst snd]. repeat (apply text_app; split); try reflexivity; assumption.
Qed.
Lemma preflib_text t raw : text t -> convert_preflib_str_to_abif t = Ok raw -> text raw.
Proof.
  intros H E. unfold convert_preflib_str_to_abif in E. apply bind_ok in E as (rk&Er&E). apply ok_inj in E. subst raw.
  assert (Hs : forall n, In n (map drop_spaces (alt_names t)) -> text n) by (intros n Hn; apply in_map_iff in Hn as (x&<-&Hx); apply filter_text, (alt_names_text t H), Hx).
  apply text_app. split; [|apply text_app; split; [reflexivity|]; apply text_app; split; [reflexivity|]].
  - apply cand_lines_text. intros x y Hin. split; [exact (Hs x (in_combine_l _ _ _ _ Hin))|exact (alt_names_text t H y (in_combine_r _ _ _ _ Hin))].
  - unfold rankings in Er. apply bind_ok in Er as (ls&El&Er). apply ok_inj in Er. subst rk. apply text_concat. intros x Hx. destruct (mapM_In _ _ _ _ El Hx) as (l&Hl&Ex). exact (ranking_line_text _ _ _ (line_text t l H Hl) Hs Ex).
Qed.
Lemma digit_runs_numeral s : forall cur, forallb is_digit cur = true -> forall d, In d (digit_runs cur s) -> numeral d.
Proof.
  assert (P : forall cur l, forallb is_digit cur = true -> (forall d, In d l -> numeral d) -> forall d, In d (push_run cur l) -> numeral d).
  { intros [|c cur] l Hc Hl d Hd; [exact (Hl d Hd)|]. destruct Hd as [<-|Hd]; [|exact (Hl d Hd)]. split; [intro E; apply (f_equal (@length N)) in E; rewrite rev_length in E; discriminate|].
    rewrite forallb_forall in *. intros x Hx. apply Hc, in_rev, Hx. }
  induction s as [|c s IH]; intros cur Hc; cbn [digit_runs]; [apply P; [exact Hc|intros d []]|]. destruct (is_digit c) eqn:E.
  - apply IH. cbn [forallb]. rewrite E, Hc. reflexivity.
  - apply P; [exact Hc|]. apply IH. reflexivity.
Qed.
Lemma preflib_err t e : convert_preflib_str_to_abif t = Err e -> e = IndexError.
Proof.
  intro E. unfold convert_preflib_str_to_abif in E. destruct (rankings t (map drop_spaces (alt_names t))) as [rk|e'] eqn:Er; cbn [bind] in E; [discriminate|]. injection E as ->.
  unfold rankings in Er. destruct (mapM _ (splitlines t)) as [ls|e'] eqn:El; cbn [bind] in Er; [discriminate|]. injection Er as ->. refine (mapM_errs _ IndexError _ _ _ El). clear. intros l e _ E.
  unfold ranking_line in E. destruct (re_match RANKING_REGEX l) as [[g rest]|]; [|discriminate]. match type of E with bind (mapM ?f ?ps) _ = _ => destruct (mapM f ps) as [tiers|e'] eqn:Et; cbn [bind] in E; [discriminate|] end. injection E as ->.
  refine (mapM_errs _ IndexError _ _ _ Et). clear. intros p e _ E. unfold part_tier in E. match type of E with bind (mapM ?f ?ps) _ = _ => destruct (mapM f ps) as [toks|e'] eqn:Et; cbn [bind] in E; [discriminate|] end. injection E as ->.
  refine (mapM_errs _ IndexError _ _ _ Et). clear. intros d e Hd E. destruct (py_int_numeral d (digit_runs_numeral p [] eq_refl d Hd)) as (n&_&En). rewrite En in E. cbn [bind] in E. unfold py_index in E. destruct (_ <? 0); [congruence|]. destruct (nth_error _ _); cbn in E; congruence.
Qed.

(** ** Endings *)
Lemma load_ends s rn a m o : In (a_to a) validoutfmts -> draws_tables rn -> schedule (s_irv s) -> usable m -> clean m ->
  (exists reads, o = match render s rn (a_to a) (a_width a) (modifiers a) (if has "consolidate" (modifiers a) then consolidate m else m) with Ok out => Outcome reads (println out) Done | Err e => Outcome reads [] (Uncaught e) end) ->
  ends_as o a m.
Proof.
  intros Hto D Ho U C (reads&->). unfold ends_as. fold (has "consolidate" (modifiers a)). set (m' := if has "consolidate" (modifiers a) then consolidate m else m).
  assert (U' : usable m') by (unfold m'; destruct (has "consolidate" (modifiers a)); [exact (consolidated_usable m C U)|exact U]).
  pose proof (render_ends s rn (a_to a) (a_width a) (modifiers a) m' Hto D Ho U') as G. destruct (complaint (a_to a) (modifiers a) m') as [e|]; cbn [ends] in G.
  - rewrite G. split; reflexivity.
  - destruct G as (x&->). split; [reflexivity|]. exists x. reflexivity.
Qed.
Lemma stage2 s rn a fmt t raw : reads_text s a fmt t -> In (u fmt) validinfmts -> u fmt <> u "sftxt" -> u fmt <> u "jabmod" -> u fmt <> u "abif" -> load s a (u fmt) t [] = convert_abif_to_jabmod raw false false false ->
  In (a_to a) validoutfmts -> draws_tables rn -> schedule (s_irv s) -> text raw -> Z.of_nat (length raw) <= maxsize ->
  match convert_abif_to_jabmod raw false false false with Ok m => ends_as (main s rn a) a m | Err e => In e [VotelineExn; TypeError; IndexError] /\ fails (main s rn a) e end.
Proof.
  intros R V N N2 Na El Hto D Ho Ht Hlen. destruct (main_text s rn a fmt t R V N N2) as (reads&E). rewrite El in E. destruct (convert_abif_to_jabmod raw false false false) as [m|e] eqn:Em.
  - apply (load_ends s rn a m); try assumption; [exact (parsed_usable _ _ _ _ _ Em Ht Hlen)|exact (parsed_clean _ _ _ _ _ Em Ht)|]. exists reads. exact E.
  - split; [destruct (C30_exceptions _ _ _ _ _ Em) as [(E1 & _)|[([E1|E1] & _)|(_ & E1)]]; try discriminate; subst e; cbn; auto|]. rewrite E. split; [reflexivity|]. cbn [o_stdout]. destruct e; try reflexivity. destruct (str_eqb_spec (u fmt) (u "abif")); [congruence|reflexivity].
Qed.
(** PrefLib: the only failure of the conversion is a number without an alternative; after it, the run goes like one on the ABIF text that
    convert_preflib_str_to_abif gives (C48), except that there is no message for a file without rankings. *)
Theorem C87_preflib : forall s rn a t, reads_text s a "preflib" t -> In (a_to a) validoutfmts -> draws_tables rn -> schedule (s_irv s) -> text t ->
  match convert_preflib_str_to_abif t with
  | Err e => e = IndexError /\ fails (main s rn a) IndexError
  | Ok raw => Z.of_nat (length raw) <= maxsize ->
      match convert_abif_to_jabmod raw false false false with Ok m => ends_as (main s rn a) a m | Err e => In e [VotelineExn; TypeError; IndexError] /\ fails (main s rn a) e end
  end.
Proof.
  intros s rn a t R Hto D Ho Ht. destruct (convert_preflib_str_to_abif t) as [raw|e] eqn:E.
  - intro Hl. apply (stage2 s rn a "preflib" t raw); try assumption; try discriminate; [cbn; tauto|unfold load; eval_fmt; rewrite E; reflexivity|exact (preflib_text t raw Ht E)].
  - pose proof (preflib_err t e E) as ->. split; [reflexivity|]. destruct (main_text s rn a "preflib" t R ltac:(cbn; tauto) ltac:(discriminate) ltac:(discriminate)) as (reads&M). assert (L : load s a (u "preflib") t [] = Err IndexError) by (unfold load; eval_fmt; rewrite E; reflexivity).
    rewrite L in M. rewrite M. split; reflexivity.
Qed.
Print Assumptions C87_preflib.

(** ** Debian tally sheets *)
Lemma search_text r s : forall g rest n, re_search r s = Some (g, rest) -> text s -> text (group n g).
Proof.
  induction s as [|c s IH]; intros g rest n E H; cbn [re_search] in E.
  - destruct (re_match r []) as [[g0 r0]|] eqn:Em; [|discriminate]. injection E as -> ->. exact (group_text _ _ _ _ n Em H).
  - destruct (re_match r (c :: s)) as [[g0 r0]|] eqn:Em; [injection E as -> ->; exact (group_text _ _ _ _ n Em H)|]. apply (IH g rest n E). apply text_cons in H. apply H.
Qed.
Lemma option_names_text t : text t -> forall n, In n (option_names t) -> text n.
Proof.
  intros H n Hn. unfold option_names in Hn. apply in_flat_map in Hn as (l&Hl&Hn). destruct (re_search OPTION_REGEX l) as [[g rest]|] eqn:E; [|destruct Hn]. destruct Hn as [<-|[]]. exact (search_text _ _ _ _ 2%nat E (line_text t l H Hl)).
Qed.
Lemma sub_nota_text s : forall k, text s -> text (sub_nota k s).
Proof.
  induction s as [|c s IH]; intros k H; [reflexivity|]. apply text_cons in H as (Hc&H). cbn [sub_nota]. destruct k as [|k]; [|exact (IH k H)]. destruct (ci_prefix k_nota (c :: s)); [apply text_app; split; [reflexivity|exact (IH _ H)]|apply text_cons; split; [exact Hc|exact (IH _ H)]].
Qed.
Lemma alnum_scalar c : alnum c = true -> scalar c = true.
Proof. unfold alnum, scalar. lia. Qed.
Lemma b32_text d : (forall x, In x d -> (x < 256)%N) -> text (b32_4 d).
Proof.
  intro H. destruct d as [|b0 [|b1 [|b2 d]]]; try reflexivity. pose proof (H b0 (or_introl eq_refl)) as H0. pose proof (H b1 (or_intror (or_introl eq_refl))) as H1. pose proof (H b2 (or_intror (or_intror (or_introl eq_refl)))) as H2.
  assert (B : forall v, (v < 64)%N -> scalar (b32_char v) = true) by (intros v Hv; unfold b32_char, scalar; destruct (N.ltb_spec v 26); lia).
  unfold b32_4, text. cbn [map forallb].
  assert (D1 : (b0 / 8 < 64)%N) by (apply N.div_lt_upper_bound; lia). assert (D2 : ((b0 mod 8) * 4 + b1 / 64 < 64)%N) by (pose proof (N.mod_lt b0 8 ltac:(lia)); assert (b1 / 64 < 4)%N by (apply N.div_lt_upper_bound; lia); lia).
  assert (D3 : ((b1 / 2) mod 32 < 64)%N) by (pose proof (N.mod_lt (b1 / 2) 32 ltac:(lia)); lia). assert (D4 : ((b1 mod 2) * 16 + b2 / 16 < 64)%N) by (pose proof (N.mod_lt b1 2 ltac:(lia)); assert (b2 / 16 < 16)%N by (apply N.div_lt_upper_bound; lia); lia).
  rewrite !B by assumption. reflexivity.
Qed.
Lemma deb_token_text sha1 s b : bytes_only sha1 -> text s -> exists t, deb_short_token sha1 s b = Ok t /\ text t.
Proof.
  intros Hb H. unfold deb_short_token. destruct (_ && _); [exists s; split; [reflexivity|exact H]|]. set (base := concat (map (filter alnum) (split_ws [] s))).
  assert (Hbase : forall k, text (firstn k base)).
  { intro k. apply (text_incl _ base); [intros x Hx; rewrite <- (firstn_skipn k base); apply in_or_app; left; exact Hx|]. apply text_concat. intros x Hx. apply in_map_iff in Hx as (y&<-&_). apply forallb_forall. intros z Hz. apply filter_In in Hz. apply alnum_scalar, Hz. }
  destruct b; [|eexists; split; [reflexivity|apply Hbase]]. unfold trunc_sha, utf8_encode. unfold text in H. rewrite H. cbn [bind]. eexists. split; [reflexivity|]. apply text_app. split; [apply Hbase|]. apply b32_text. apply Hb.
Qed.
Lemma short_names_text sha1 names : bytes_only sha1 -> (forall n, In n names -> text n) -> forall seen, exists ts, short_option_names sha1 seen names = Ok ts /\ forall t, In t ts -> text t.
Proof.
  intros Hb. induction names as [|o names IH]; intros H seen; cbn [short_option_names]; [exists []; split; [reflexivity|intros t []]|].
  assert (Ho : text (sub_nota 0 o)) by (apply sub_nota_text, H; left; reflexivity). destruct (deb_token_text sha1 _ false Hb Ho) as (t0&E0&H0). rewrite E0. cbn [bind].
  destruct (deb_token_text sha1 _ true Hb Ho) as (t1&E1&H1). assert (G : exists t, (if memb t0 seen then deb_short_token sha1 (sub_nota 0 o) true else Ok t0) = Ok t /\ text t) by (destruct (memb t0 seen); [exists t1|exists t0]; auto).
  destruct G as (t&Et&Ht). rewrite Et. cbn [bind]. destruct (IH (fun n Hn => H n (or_intror Hn)) (t :: seen)) as (ts&Es&Hs). rewrite Es. cbn [bind]. eexists. split; [reflexivity|]. intros x [<-|Hx]; [exact Ht|exact (Hs x Hx)].
Qed.
Lemma vote_tiers_text shorts n pref : (forall t, In t shorts -> text t) -> match vote_tiers shorts n pref with Ok ts => forall t, In t ts -> text t | Err e => e = IndexError end.
Proof.
  intro H. unfold vote_tiers. match goal with |- context [mapM ?f (seq 0 n)] => destruct (mapM f (seq 0 n)) as [tiers|e] eqn:E end; cbn [bind].
  - intros t Ht. apply in_concat in Ht as (l&Hl&Ht). destruct (mapM_In _ _ _ _ E Hl) as (r&_&Er). cbv beta in Er. destruct (marked_at _ 0 pref) as [|i is]; [apply ok_inj in Er; subst l; destruct Ht|]. apply bind_ok in Er as (names&En&Er). apply ok_inj in Er. subst l. destruct Ht as [<-|[]].
    apply text_join; [reflexivity|]. intros x Hx. destruct (mapM_In _ _ _ _ En Hx) as (j&_&Ej). destruct (nth_error shorts j) as [y|] eqn:Ey; [|discriminate]. cbn in Ej. apply ok_inj in Ej. subst y. exact (H x (nth_error_In _ _ Ey)).
  - refine (mapM_errs _ IndexError _ _ _ E). clear. intros r e _ E. cbv beta in E. destruct (marked_at _ 0 pref) as [|i is]; [discriminate|]. match type of E with bind (mapM ?f ?l) _ = _ => destruct (mapM f l) as [names|e'] eqn:En; cbn [bind] in E; [discriminate|] end. injection E as ->.
    refine (mapM_errs _ IndexError _ _ _ En). intros j e0 _ Ej. destruct (nth_error shorts j); cbn in Ej; congruence.
Qed.
Lemma debtally_text sha1 t : bytes_only sha1 -> text t -> match convert_debtally_to_abif sha1 t [] with Ok raw => text raw | Err e => e = IndexError end.
Proof.
  intros Hb H. unfold convert_debtally_to_abif. destruct (short_names_text sha1 (option_names t) Hb (option_names_text t H) []) as (shorts&Es&Hs). rewrite Es. cbn [bind].
  match goal with |- context [mapM ?f (vline_rankings t)] => destruct (mapM f (vline_rankings t)) as [votes|e] eqn:E end; cbn [bind].
  - cbn [map concat app]. apply text_app. split; [|apply text_cons; split; [reflexivity|]].
    + apply cand_lines_text. intros x y Hin. split; [exact (Hs x (in_combine_l _ _ _ _ Hin))|exact (option_names_text t H y (in_combine_r _ _ _ _ Hin))].
    + apply text_concat. intros x Hx. destruct (mapM_In _ _ _ _ E Hx) as (v&Hv&Ev). apply bind_ok in Ev as (tiers&Et&Ev). apply ok_inj in Ev. subst x. pose proof (vote_tiers_text shorts (length (option_names t)) (snd v) Hs) as G. rewrite Et in G.
      apply text_app. split; [reflexivity|]. apply text_app. split; [apply text_join; [reflexivity|exact G]|]. apply text_app. split; [reflexivity|]. apply text_app. split; [|reflexivity].
      unfold vline_rankings in Hv. apply in_flat_map in Hv as (l&Hl&Hv). destruct (re_match VLINE_REGEX l) as [[g rest]|] eqn:Eg; [|destruct Hv]. destruct Hv as [<-|[]]. cbn [fst]. exact (group_text _ _ _ _ 2%nat Eg (line_text t l H Hl)).
  - refine (mapM_errs _ IndexError _ _ _ E). clear E. intros v e' _ E. cbv beta in E. pose proof (vote_tiers_text shorts (length (option_names t)) (snd v) Hs) as G. destruct (vote_tiers shorts _ (snd v)) as [ts|e0]; cbn [bind] in E; [discriminate|]. congruence.
Qed.
(** Likewise for Debian tally sheets: the only failure of the conversion is a mark without an option. *)
Theorem C87_debtally : forall s rn a t, reads_text s a "debtally" t -> In (a_to a) validoutfmts -> draws_tables rn -> schedule (s_irv s) -> bytes_only (s_sha1 s) -> text t ->
  match convert_debtally_to_abif (s_sha1 s) t [] with
  | Err e => e = IndexError /\ fails (main s rn a) IndexError
  | Ok raw => Z.of_nat (length raw) <= maxsize ->
      match convert_abif_to_jabmod raw false false false with Ok m => ends_as (main s rn a) a m | Err e => In e [VotelineExn; TypeError; IndexError] /\ fails (main s rn a) e end
  end.
Proof.
  intros s rn a t R Hto D Ho Hb Ht. pose proof (debtally_text (s_sha1 s) t Hb Ht) as G. destruct (convert_debtally_to_abif (s_sha1 s) t []) as [raw|e] eqn:E.
  - intro Hl. apply (stage2 s rn a "debtally" t raw); try assumption; try discriminate; [cbn; tauto|unfold load; eval_fmt; rewrite E; reflexivity].
  - subst e. split; [reflexivity|]. destruct (main_text s rn a "debtally" t R ltac:(cbn; tauto) ltac:(discriminate) ltac:(discriminate)) as (reads&M). assert (L : load s a (u "debtally") t [] = Err IndexError) by (unfold load; eval_fmt; rewrite E; reflexivity).
    rewrite L in M. rewrite M. split; reflexivity.
Qed.
Print Assumptions C87_debtally.

(** ** nameq *)
Lemma nameq_usable t m : convert_nameq_to_jabmod t = Ok m -> text t -> (forall line c r, In line (splitlines t) -> named_rank line c = Some r -> r < maxsize) -> usable m /\ clean m.
Proof.
  intros E Ht Hr. destruct (nameq_tallied t m E Ht Hr) as (T&Tx&_). destruct (C43_every_line_counted t m E) as (_&Hbc&_&Hn&_&Hv).
  assert (K : forall v c p, In v (j_votelines m) -> In (c, p) (v_prefs v) -> exists r, p = ranked r).
  { intros v c p Hin Hcp. pose proof E as E'. unfold convert_nameq_to_jabmod in E'. apply bind_ok in E' as (vs&Ev&E'). apply ok_inj in E'. subst m. cbn [j_votelines] in Hin. destruct (mapM_In _ _ _ _ Ev Hin) as (line&_&El).
    destruct (nameq_ranks line v El) as (_&_&G). destruct (Hv v Hin) as (_&(Nd&_)&_). apply (dget_In_nodup _ _ _ Nd) in Hcp. rewrite (G c) in Hcp. destruct (named_rank line c) as [r|]; [|discriminate]. apply some_inj in Hcp. exists r. congruence. }
  assert (Sc : forall v c p, In v (j_votelines m) -> In (c, p) (v_prefs v) -> text c) by (intros v c p Hin Hcp; apply Tx; destruct (Hv v Hin) as (_&(_&Hi)&_); exact (Hi c (in_map fst _ _ Hcp))).
  split; [constructor|].
  - exact T.
  - split; [exact Hn|]. intros v Hin. split; [apply Hv, Hin|]. apply forallb_forall. intros [c p] Hcp. destruct (K v c p Hin Hcp) as (r&->). reflexivity.
  - intro Hne. split; [exact Hn|]. split; [exact Hne|]. intros v Hin. split; [apply Hv, Hin|]. intros c p Hcp. destruct (K v c p Hin Hcp) as (r&->). discriminate.
  - eexists. exact Hbc.
  - intros v Hin c p Hcp. destruct (K v c p Hin Hcp) as (r&->). split; [exact (Sc v c _ Hin Hcp)|]. split; [exists r; reflexivity|exact I].
  - exact Tx.
  - intros v Hin. split; [apply Hv, Hin|]. intros c p Hcp. destruct (K v c p Hin Hcp) as (r&->). split; [exact (Sc v c _ Hin Hcp)|]. split; intros x Ex; discriminate Ex.
Qed.
(** nameq: a rank that is not a number is the only failure of reading. *)
Theorem C87_nameq : forall s rn a t, reads_text s a "nameq" t -> In (a_to a) validoutfmts -> draws_tables rn -> schedule (s_irv s) -> text t ->
  match convert_nameq_to_jabmod t with
  | Err e => e = ValueError /\ fails (main s rn a) ValueError
  | Ok m => (forall line c r, In line (splitlines t) -> named_rank line c = Some r -> r < maxsize) -> ends_as (main s rn a) a m
  end.
Proof.
  intros s rn a t R Hto D Ho Ht. destruct (main_text s rn a "nameq" t R ltac:(cbn; tauto) ltac:(discriminate) ltac:(discriminate)) as (reads&M). assert (L : load s a (u "nameq") t [] = convert_nameq_to_jabmod t) by (unfold load; eval_fmt; reflexivity). rewrite L in M.
  destruct (convert_nameq_to_jabmod t) as [m|e] eqn:E.
  - intro Hr. destruct (nameq_usable t m E Ht Hr) as (U&C). apply (load_ends s rn a m); try assumption. exists reads. exact M.
  - destruct (C43_only_bad_ranks_fail t e E) as (->&_). split; [reflexivity|]. rewrite M. split; reflexivity.
Qed.
Print Assumptions C87_nameq.

(** ** San Francisco files *)
Lemma sf_usable master ballots sm : convert_sftxt_to_jabmod master ballots false = Ok sm -> usable (jabmod_of_sf sm) /\ clean (jabmod_of_sf sm).
Proof.
  intro E. destruct (C51_only_acceptable _ _ _ _ E) as (contest&Acc&(gs&vs&B&F&Hbc&_)). destruct Acc as (H1&H2&H3&H4&H5). pose proof E as E0. unfold convert_sftxt_to_jabmod in E0. rewrite master_read in E0 by exact H1. cbn [bind] in E0. destruct (pool_of (splitlines master) H1) as (pool&P1&P2&P3). rewrite P1 in E0. cbn [bind] in E0.
  apply first_id_contest in H3. rewrite H3 in E0. rewrite ballots_read in E0; [|apply (mine_nonempty contest), H4|exact H2].
  destruct (C50_grouped pool contest (map image_of (splitlines ballots))) as (gs0&bs&Eb&B0&F0); [apply (good_votes pool _ contest _ P3), H5|exact H4|].
  rewrite Eb in E0. cbn [bind] in E0. destruct (ballot_lines pool false gs0 bs F0) as (vs0&Ev&Fv). rewrite Ev in E0. cbn [bind] in E0. apply ok_inj in E0.
  set (mdata := dset k_ballotcount (JInt (Z.of_nat (length vs0))) (dset (u "contestid") (JStr contest) (j_metadata emptyish))) in *.
  assert (Hc : clean (Jabmod mdata [] vs0)).
  { intros w Hv. cbn [j_votelines] in Hv. destruct (proj2 (Forall2_In _ _ _ Fv) w Hv) as (g&_&Hg). apply (group_line_clean _ _ _ _ Hg). }
  assert (El : j_votelines (jabmod_of_sf sm) = map (fun v => vl (ballots_where (fun w => same_line v w) vs0) (v_prefs v)) (first_of_each vs0)).
  { rewrite <- E0. unfold jabmod_of_sf. cbn [sf_votelines j_votelines]. rewrite (C44_exact _ Hc). reflexivity. }
  assert (Ec : cands (jabmod_of_sf sm) = dkeys (cand_table 0 pool [])).
  { rewrite <- E0. unfold cands, jabmod_of_sf. cbn [j_candidates sf_candidates]. rewrite map_map. reflexivity. }
  assert (G0in : forall g x, In g gs0 -> In x g -> In x (mine contest (map image_of (splitlines ballots)))) by (intros g x Hg Hx; rewrite <- (proj1 B0); apply in_concat; exists g; auto).
  assert (Tx : forall c, In c (cands (jabmod_of_sf sm)) -> text c) by (rewrite Ec; apply cand_table_text; intros k []).
  assert (Nd : NoDup (cands (jabmod_of_sf sm))) by (rewrite Ec; apply cand_table_nodup; constructor).
  assert (K : forall v, In v (j_votelines (jabmod_of_sf sm)) -> NoDup (map fst (v_prefs v)) /\ forall c p, In (c, p) (v_prefs v) -> In c (cands (jabmod_of_sf sm)) /\ exists r, p = ranked r /\ r < maxsize).
  { rewrite El. intros v Hv. apply in_map_iff in Hv as (w&<-&Hv). apply foe_incl in Hv. destruct (proj2 (Forall2_In _ _ _ Fv) w Hv) as (g&Hg&(_&Q2&Q3)). cbn [v_prefs vl]. split; [exact Q2|]. intros c p Hin.
    apply (dget_In_nodup _ _ _ Q2) in Hin. apply Q3 in Hin as (b1&x&a1&r&Eg&Tk&Er&->&_).
    assert (Hx : In x (mine contest (map image_of (splitlines ballots)))) by (apply (G0in g x Hg); rewrite Eg; apply in_or_app; right; left; reflexivity). split.
    - rewrite Ec. unfold token_on in Tk. destruct (dget (im_cand x) pool) as [[[|c0 cr]|]|] eqn:En; try discriminate Tk. apply some_inj in Tk. subst c. exact (proj2 (PropsSftxtFile.table_keys pool 0 []) _ _ _ (dget_In _ _ _ En)).
    - exists r. split; [reflexivity|]. apply filter_In in Hx as (Hx&_). apply in_map_iff in Hx as (line&<-&_). exact (rank_field line r Er). }
  split; [constructor|].
  - split; [exact Nd|]. intros v Hv. apply forallb_forall. intros [c p] Hin. destruct (proj2 (K v Hv) c p Hin) as (_&r&->&Hr). cbn [snd p_rank ranked]. apply Z.ltb_lt, Hr.
  - split; [exact Nd|]. intros v Hv. destruct (K v Hv) as (K1&K2). split; [split; [exact K1|]|].
    + intros c Hc0. apply in_map_iff in Hc0 as ([c' p]&<-&Hin). exact (proj1 (K2 c' p Hin)).
    + apply forallb_forall. intros [c p] Hin. destruct (K2 c p Hin) as (_&r&->&_). reflexivity.
  - intro Hne. split; [exact Nd|]. split; [exact Hne|]. intros v Hv. destruct (K v Hv) as (K1&K2). split; [split; [exact K1|]|].
    + intros c Hc0. apply in_map_iff in Hc0 as ([c' p]&<-&Hin). exact (proj1 (K2 c' p Hin)).
    + intros c p Hin. destruct (K2 c p Hin) as (_&r&->&_). discriminate.
  - eexists. exact Hbc.
  - intros v Hv c p Hin. destruct (proj2 (K v Hv) c p Hin) as (A1&r&->&_). split; [exact (Tx c A1)|]. split; [exists r; reflexivity|exact I].
  - exact Tx.
  - intros v Hv. destruct (K v Hv) as (K1&K2). split; [exact K1|]. intros c p Hin. destruct (K2 c p Hin) as (A1&r&->&_). split; [exact (Tx c A1)|]. split; intros x Ex; discriminate Ex.
Qed.
(** The candidates of the San Francisco files that have no name: as a rule one, which stands for the lines without a candidate. *)
Definition without_name (sm : sf_jabmod) (k : str) : Prop := In (k, None) (sf_candidates sm).
(** IRV finds several winners, and one of them has no name. *)
Definition nameless_winners (s : surroundings) (sm : sf_jabmod) (m : jabmod) : Prop :=
  exists d w, IRV_dict_from_jabmod (s_irv s) m = Ok d /\ (2 <= length (ir_winner d))%nat /\ In w (ir_winner d) /\ without_name sm w.
Lemma unnamed_ends s rn none to w mods m : none <> [] -> cands m <> [] -> In to validoutfmts -> draws_tables rn -> schedule (s_irv s) -> usable m -> exists d, IRV_dict_from_jabmod (s_irv s) m = Ok d /\
  (In to [u "html"; u "html_snippet"] -> render_as none s rn to w mods m = Err TypeError) /\
  (shows_irv to mods -> nameless_tie none d = true -> render_as none s rn to w mods m = Err TypeError) /\
  (~ In to [u "html"; u "html_snippet"] -> (shows_irv to mods -> nameless_tie none d = false) -> ends (render_as none s rn to w mods m) (complaint to mods m)).
Proof.
  intros Hn Hc Hto D Ho U. destruct none as [|k none]; [congruence|]. cbn [render_as]. assert (L1 : (1 <=? length (cands m))%nat = true) by (destruct (cands m); [congruence|reflexivity]).
  destruct (irv_ends _ m Ho U) as (I1&I2). rewrite L1 in I1, I2. cbn [unless ends] in I1, I2. destruct I2 as (d&Ed). rewrite Ed in I1. cbn [bind] in I1. exists d. split; [exact Ed|].
  pose proof (render_ends s rn to w mods m Hto D Ho U) as R.
  assert (Irv : forall (t : irvdict -> str), (nameless_tie (k :: none) d = true -> (let* d := (let* d := IRV_dict_from_jabmod (s_irv s) m in if nameless_tie (k :: none) d then Err TypeError else Ok d) in Ok (t d)) = Err TypeError) /\
    (nameless_tie (k :: none) d = false -> (let* d := (let* d := IRV_dict_from_jabmod (s_irv s) m in if nameless_tie (k :: none) d then Err TypeError else Ok d) in Ok (t d)) = Ok (t d))).
  { intro t. rewrite Ed. cbn [bind]. split; intros ->; reflexivity. }
  cbn [validoutfmts In] in Hto. destruct Hto as [<-|[<-|[<-|[<-|[<-|[<-|[<-|[<-|[<-|[<-|[<-|[<-|[<-|[]]]]]]]]]]]]]].
  - split; [intros [H|[H|[]]]; discriminate H|]. split; [intros [H|([H|[H|[H|[]]]] & _)]; discriminate H|]. intros _ _. exact R.
  - split; [intros [H|[H|[]]]; discriminate H|]. split; [intros [H|([H|[H|[H|[]]]] & _)]; discriminate H|]. intros _ _. exact R.
  - split; [intros [H|[H|[]]]; discriminate H|]. split; [intros [H|([H|[H|[H|[]]]] & _)]; discriminate H|]. intros _ _. exact R.
  - change (render_unnamed (k :: none) s rn (u "html") w mods m) with (let* _ := render s rn (u "html") w mods m in @Err str TypeError).
    change (complaint (u "html") mods m) with (@None exn) in R. destruct R as (x&->). split; [reflexivity|]. split; [intros [H|([H|[H|[H|[]]]] & _)]; discriminate H|]. intro H. destruct H. left. reflexivity.
  - change (render_unnamed (k :: none) s rn (u "html_snippet") w mods m) with (let* _ := render s rn (u "html_snippet") w mods m in @Err str TypeError).
    change (complaint (u "html_snippet") mods m) with (if has "svg" mods then unless (1 <=? length (cands m))%nat ValueError else None) in R. rewrite L1 in R. cbn [unless] in R.
    assert (R' : exists x, render s rn (u "html_snippet") w mods m = Ok x) by (destruct (has "svg" mods); exact R). destruct R' as (x&->).
    split; [reflexivity|]. split; [intros [H|([H|[H|[H|[]]]] & _)]; discriminate H|]. intro H. destruct H. right. left. reflexivity.
  - change (render_unnamed (k :: none) s rn (u "irvjson") w mods m) with (let* d := (let* d := IRV_dict_from_jabmod (s_irv s) m in if nameless_tie (k :: none) d then Err TypeError else Ok d) in Ok (dumps_indent 4 (irv_unnamed (k :: none) d (json_of_irv (r_set_order rn) d)))).
    destruct (Irv (fun d => dumps_indent 4 (irv_unnamed (k :: none) d (json_of_irv (r_set_order rn) d)))) as (J1&J2).
    split; [intros [H|[H|[]]]; discriminate H|]. split; [intros _ H; exact (J1 H)|]. intros _ H. rewrite (J2 (H (or_introl eq_refl))). change (complaint (u "irvjson") mods m) with (unless (1 <=? length (cands m))%nat ValueError). rewrite L1. eexists. reflexivity.
  - split; [intros [H|[H|[]]]; discriminate H|]. split; [intros [H|([H|[H|[H|[]]]] & _)]; discriminate H|]. intros _ _. eexists. reflexivity.
  - change (complaint (u "json") mods m) with (if has "IRV" mods then unless (1 <=? length (cands m))%nat ValueError else if negb (has "pairwise" mods) && has "STAR" mods then unless (2 <=? length (cands m))%nat IndexError else None) in *. rewrite L1 in *.
    change (render_unnamed (k :: none) s rn (u "json") w mods m) with (if has "IRV" mods then let* d := (let* d := IRV_dict_from_jabmod (s_irv s) m in if nameless_tie (k :: none) d then Err TypeError else Ok d) in Ok (dumps_indent 4 (irv_unnamed (k :: none) d (json_of_irv (r_set_order rn) d)))
      else if has "pairwise" mods then render s rn (u "json") w mods m else if has "STAR" mods then let* d := STAR_result m in Ok (dumps_indent 4 (star_unnamed (k :: none) d (json_of_star d))) else render s rn (u "json") w mods m).
    destruct (Irv (fun d => dumps_indent 4 (irv_unnamed (k :: none) d (json_of_irv (r_set_order rn) d)))) as (J1&J2).
    split; [intros [H|[H|[]]]; discriminate H|]. destruct (has "IRV" mods) eqn:Ei.
    + split; [intros _ H; exact (J1 H)|]. intros _ H. rewrite (J2 (H (or_intror (conj (or_introl eq_refl) (proj1 (memb_In _ _) Ei))))). eexists. reflexivity.
    + split; [intros [H|(_&H)]; [discriminate H|]; apply memb_In in H; unfold has in Ei; congruence|]. intros _ _. destruct (has "pairwise" mods) eqn:Epw; [exact R|]. cbn [negb andb] in *. destruct (has "STAR" mods) eqn:Es; [|exact R]. apply ends_ok, star_ends, U.
  - split; [intros [H|[H|[]]]; discriminate H|]. split; [intros [H|([H|[H|[H|[]]]] & _)]; discriminate H|]. intros _ _. exact R.
  - change (complaint (u "paircountjson") mods m) with (if has "IRV" mods then unless (1 <=? length (cands m))%nat ValueError else None) in *. rewrite L1 in *.
    change (render_unnamed (k :: none) s rn (u "paircountjson") w mods m) with (if has "IRV" mods then let* d := (let* d := IRV_dict_from_jabmod (s_irv s) m in if nameless_tie (k :: none) d then Err TypeError else Ok d) in Ok (dumps_indent 4 (irv_unnamed (k :: none) d (json_of_irv (r_set_order rn) d))) else render s rn (u "paircountjson") w mods m).
    destruct (Irv (fun d => dumps_indent 4 (irv_unnamed (k :: none) d (json_of_irv (r_set_order rn) d)))) as (J1&J2).
    split; [intros [H|[H|[]]]; discriminate H|]. destruct (has "IRV" mods) eqn:Ei.
    + split; [intros _ H; exact (J1 H)|]. intros _ H. rewrite (J2 (H (or_intror (conj (or_intror (or_introl eq_refl)) (proj1 (memb_In _ _) Ei))))). eexists. reflexivity.
    + split; [intros [H|(_&H)]; [discriminate H|]; apply memb_In in H; unfold has in Ei; congruence|]. intros _ _. exact R.
  - split; [intros [H|[H|[]]]; discriminate H|]. split; [intros [H|([H|[H|[H|[]]]] & _)]; discriminate H|]. intros _ _. exact R.
  - split; [intros [H|[H|[]]]; discriminate H|]. pose proof (C01_pairwise_exact m (us_tally _ U)) as Ep. destruct (C57_texttable m (us_tally _ U)) as (ord&_&Et).
    assert (T2 : exists x, (let* t := texttable_rows m in table_text (r_draw rn 80 t)) = Ok x) by (rewrite Et; cbn [bind]; apply table_ends, D). assert (T3 : exists x, (let* p := pairwise_count_dict m in table_text (r_draw rn w (textgrid_rows p))) = Ok x) by (rewrite Ep; cbn [bind]; apply table_ends, D).
    destruct T2 as (x2&E2). destruct T3 as (x3&E3). destruct I1 as (x4&E4).
    change (render s rn (u "text") w mods m) with (text_output mods (text_sections s rn w m)) in R.
    change (render_unnamed (k :: none) s rn (u "text") w mods m) with (text_output mods (map (fun nt => if str_eqb (u (fst nt)) (u "IRV") then (fst nt, let* d := (let* d := IRV_dict_from_jabmod (s_irv s) m in if nameless_tie (k :: none) d then Err TypeError else Ok d) in get_IRV_report d) else nt) (text_sections s rn w m))).
    unfold text_sections in *. cbn [map fst snd]. eval_fmt. cbv iota. cbn [text_output] in *. rewrite E2, E3, Ed in *. cbn [bind] in *. rewrite E4 in *.
    destruct (has "IRV" mods) eqn:Ei.
    + split.
      * intros _ H. rewrite H. cbn [bind]. destruct (has "candlist" mods), (has "winlosstie" mods), (has "pairwise" mods); reflexivity.
      * intros _ H. rewrite (H (or_intror (conj (or_intror (or_intror (or_introl eq_refl))) (proj1 (memb_In _ _) Ei)))). cbn [bind]. rewrite E4. exact R.
    + split; [intros [H|(_&H)]; [discriminate H|]; apply memb_In in H; unfold has in Ei; congruence|]. intros _ _. exact R.
  - split; [intros [H|[H|[]]]; discriminate H|]. split; [intros [H|([H|[H|[H|[]]]] & _)]; discriminate H|]. intros _ _. exact R.
Qed.
(** San Francisco files.  Two kinds of runs fail with a TypeError, because a candidate has no name: those to html and html_snippet, and those
    that show IRV when it has several winners, one of them without a name.  All others end like those on the other formats. *)
Theorem C87_sftxt : forall s rn a master ballots more, reads_files s a "sftxt" (master :: ballots :: more) -> In (a_to a) validoutfmts -> draws_tables rn -> schedule (s_irv s) ->
  match convert_sftxt_to_jabmod master ballots false with
  | Err e => fails (main s rn a) e
  | Ok sm => let m := jabmod_of_sf sm in let m' := if memb (u "consolidate") (modifiers a) then consolidate m else m in
      (In (a_to a) [u "html"; u "html_snippet"] -> (exists k, without_name sm k) -> fails (main s rn a) TypeError) /\
      (shows_irv (a_to a) (modifiers a) -> nameless_winners s sm m' -> fails (main s rn a) TypeError) /\
      ((In (a_to a) [u "html"; u "html_snippet"] -> forall k, ~ without_name sm k) -> (shows_irv (a_to a) (modifiers a) -> ~ nameless_winners s sm m') -> ends_as (main s rn a) a m)
  end.
Proof.
  intros s rn a master ballots more R Hto D Ho. pose proof (main_sftxt s rn a _ R ltac:(cbn [length]; lia)) as M.
  assert (L : load s a (u "sftxt") (last (master :: ballots :: more) []) (master :: ballots :: more) = let* m := convert_sftxt_to_jabmod master ballots false in Ok (jabmod_of_sf m)).
  { unfold load. eval_fmt. cbn [blob nth_error of_option bind]. reflexivity. }
  rewrite L in M. destruct (convert_sftxt_to_jabmod master ballots false) as [sm|e] eqn:E; cbn [bind] in M; [|rewrite M; split; reflexivity]. cbv zeta.
  destruct (sf_usable _ _ _ E) as (U&C). set (none := unnamed (u "sftxt") (last (master :: ballots :: more) []) (master :: ballots :: more)) in *.
  assert (Hnone : forall k, In k none <-> without_name sm k).
  { intro k. unfold none, unnamed. change (str_eqb (u "sftxt") (u "sftxt")) with true. cbv iota. cbn [blob nth_error of_option]. rewrite E. unfold without_name. split.
    - intro H. apply in_map_iff in H as ([k' o]&<-&H). apply filter_In in H as (H&Hs). cbn [snd fst] in *. destruct o; [discriminate|exact H].
    - intro H. apply in_map_iff. exists (k, None). split; [reflexivity|]. apply filter_In. split; [exact H|reflexivity]. }
  clearbody none. fold (has "consolidate" (modifiers a)). set (m' := if has "consolidate" (modifiers a) then consolidate (jabmod_of_sf sm) else jabmod_of_sf sm) in *.
  assert (Ec : cands m' = map fst (sf_candidates sm)).
  { unfold m'. destruct (has "consolidate" (modifiers a)); unfold cands, consolidate, jabmod_of_sf; cbn [j_candidates]; rewrite map_map; reflexivity. }
  assert (U' : usable m') by (unfold m'; destruct (has "consolidate" (modifiers a)); [exact (consolidated_usable _ C U)|exact U]).
  assert (Hcn : none <> [] -> cands m' <> []).
  { intros Hn Hc. destruct none as [|k none]; [congruence|]. pose proof (proj1 (Hnone k) (or_introl eq_refl)) as H. apply (in_map fst) in H. rewrite <- Ec, Hc in H. destruct H. }
  assert (Tie : forall d, nameless_tie none d = true <-> (2 <= length (ir_winner d))%nat /\ exists w, In w (ir_winner d) /\ without_name sm w).
  { intro d. unfold nameless_tie. rewrite andb_true_iff, Nat.ltb_lt, existsb_exists. split; intros (H1&w&H2&H3); (split; [exact H1|]); exists w; (split; [exact H2|]); [apply Hnone, memb_In, H3|apply memb_In, Hnone, H3]. }
  assert (Ends : ends (render_as none s rn (a_to a) (a_width a) (modifiers a) m') (complaint (a_to a) (modifiers a) m') -> ends_as (main s rn a) a (jabmod_of_sf sm)).
  { intro G. unfold ends_as. fold (has "consolidate" (modifiers a)). fold m'. rewrite M. destruct (complaint (a_to a) (modifiers a) m') as [e|]; cbn [ends] in G; [rewrite G; split; reflexivity|]. destruct G as (x&->). split; [reflexivity|]. exists x. reflexivity. }
  destruct (list_eq_dec (list_eq_dec N.eq_dec) none []) as [Hn|Hn].
  - subst none. split; [intros _ (k&Hk); apply Hnone in Hk; destruct Hk|]. split; [intros _ (d&w&_&_&_&Hw); apply Hnone in Hw; destruct Hw|]. intros _ _. apply Ends. exact (render_ends s rn _ _ _ m' Hto D Ho U').
  - destruct (unnamed_ends s rn none (a_to a) (a_width a) (modifiers a) m' Hn (Hcn Hn) Hto D Ho U') as (d&Ed&A1&A2&A3). split; [|split].
    + intros Hh _. rewrite (A1 Hh) in M. rewrite M. split; reflexivity.
    + intros Hi (d'&w&Ed'&H2&H3&H4). rewrite Ed in Ed'. apply ok_inj in Ed'. subst d'. assert (T : nameless_tie none d = true) by (apply Tie; split; [exact H2|exists w; auto]). rewrite (A2 Hi T) in M. rewrite M. split; reflexivity.
    + intros Hh Hi. apply Ends, A3.
      * intro H. destruct none as [|k none]; [exact (Hn eq_refl)|]. exact (Hh H k (proj1 (Hnone k) (or_introl eq_refl))).
      * intro H. destruct (nameless_tie none d) eqn:T; [|reflexivity]. apply Tie in T as (H2&w&H3&H4). destruct (Hi H). exists d, w. auto.
Qed.
Print Assumptions C87_sftxt.
(** So abiftool -f sftxt -t html always fails, unless a record names the candidate 0000000 or makes the token cand0. *)
Lemma pool_head rows : forall o rest cid pool cid', foldM candpool_step rows ((zero_id, o) :: rest, cid) = Ok (pool, cid') -> exists o' rest', pool = (zero_id, o') :: rest'.
Proof.
  assert (H : forall row o rest cid pool cid', candpool_step ((zero_id, o) :: rest, cid) row = Ok (pool, cid') -> exists o' rest', pool = (zero_id, o') :: rest').
  { intros row o rest cid pool cid' E. unfold candpool_step in E. apply bind_ok in E as (rt&_&E). apply bind_ok in E as (pool'&Ep&E).
    assert (G : exists o' rest', pool' = (zero_id, o') :: rest').
    { destruct (str_eqb (strip rt) (u "Candidate")); [|apply ok_inj in Ep; subst pool'; eauto]. apply bind_ok in Ep as (i&_&Ep). apply bind_ok in Ep as (d&_&Ep). apply ok_inj in Ep. subst pool'. cbn [dset]. destruct (str_eqb i zero_id); eauto. }
    assert (pool = pool') as -> by (destruct (str_eqb (strip rt) (u "Contest")); [destruct cid as [[|c0 cr]|]; [apply bind_ok in E as (i&_&E)| |apply bind_ok in E as (i&_&E)]|]; apply ok_inj in E; congruence). exact G. }
  induction rows as [|row rows IH]; intros o rest cid pool cid' E; cbn [foldM] in E; [apply ok_inj in E; injection E as <- _; eauto|].
  apply bind_ok in E as ((pool1&cid1)&E1&E2). destruct (H _ _ _ _ _ _ E1) as (o1&rest1&->). exact (IH _ _ _ _ _ E2).
Qed.
Lemma cand0_stays pool : forall n t, (1 <= n)%N -> dget (u "cand0") t = Some None -> (forall i c r, In (i, Some (c :: r)) pool -> sf_short_token (c :: r) <> u "cand0") -> dget (u "cand0") (cand_table n pool t) = Some None.
Proof.
  induction pool as [|[i name] pool IH]; intros n t Hn Ht H; cbn [cand_table]; [exact Ht|]. apply IH; [lia| |intros j c r Hin; apply (H j c r); right; exact Hin].
  set (tok := match truthy name with Some s => sf_short_token s | None => u "cand" ++ n2s n end). rewrite dget_dset. destruct (str_eqb_spec tok (u "cand0")) as [Ek|Ek]; [|destruct (str_eqb_spec (u "cand0") tok); [congruence|exact Ht]].
  exfalso. unfold tok in Ek. destruct name as [[|c r]|]; cbn [truthy] in Ek; [|exact (H i c r (or_introl eq_refl) Ek)|].
  all: change (u "cand0") with (u "cand" ++ n2s 0) in Ek; apply app_inv_head in Ek; apply n2s_inj in Ek; lia.
Qed.
Theorem C87_sftxt_html : forall s rn a master ballots more sm, reads_files s a "sftxt" (master :: ballots :: more) -> In (a_to a) [u "html"; u "html_snippet"] -> draws_tables rn -> schedule (s_irv s) ->
  convert_sftxt_to_jabmod master ballots false = Ok sm ->
  (forall x, In x (map lookup_of (splitlines master)) -> lk_type x = u "Candidate" -> lk_id x <> u "0000000" /\ sf_short_token (lk_desc x) <> u "cand0") ->
  fails (main s rn a) TypeError.
Proof.
  intros s rn a master ballots more sm R Hto D Ho E H. assert (V : In (a_to a) validoutfmts) by (destruct Hto as [<-|[<-|[]]]; cbn; tauto).
  pose proof (C87_sftxt s rn a master ballots more R V D Ho) as G. rewrite E in G. cbv zeta in G. apply (proj1 G Hto). exists (u "cand0"). unfold without_name.
  destruct (C51_only_acceptable _ _ _ _ E) as (contest&(H1&_)&_). pose proof E as E0. unfold convert_sftxt_to_jabmod in E0. rewrite master_read in E0 by exact H1. cbn [bind] in E0. destruct (pool_of (splitlines master) H1) as (pool&P1&P2&P3). rewrite P1 in E0. cbn [bind] in E0.
  apply bind_ok in E0 as (recs&_&E0). apply bind_ok in E0 as (vls&_&E0). apply ok_inj in E0. rewrite <- E0. cbn [sf_candidates]. apply dget_In.
  destruct (pool_head _ _ _ _ _ _ P1) as (o&rest&->). 
  assert (Ds : forall i d, last_desc (map lookup_of (splitlines master)) i = Some d -> exists x, In x (map lookup_of (splitlines master)) /\ lk_type x = u "Candidate" /\ lk_id x = i /\ lk_desc x = d).
  { intros i d. clear. induction (map lookup_of (splitlines master)) as [|x ls IH]; cbn [last_desc]; [discriminate|]. destruct (last_desc ls i) as [d'|]; [intro Q; destruct (IH Q) as (y&Y1&Y2); exists y; split; [right; exact Y1|exact Y2]|].
    destruct (str_eqb_spec (lk_type x) (u "Candidate")); destruct (str_eqb_spec (lk_id x) i); cbn [andb]; try discriminate. intro Q. apply some_inj in Q. exists x. split; [left; reflexivity|auto]. }
  pose proof (P3 zero_id) as P0. cbn [dget] in P0. rewrite str_eqb_refl, named_last in P0. destruct (last_desc _ zero_id) as [d|] eqn:Ez.
  - destruct (Ds _ _ Ez) as (x&X1&X2&X3&_). destruct (proj1 (H x X1 X2) X3).
  - change (str_eqb zero_id (u "0000000")) with true in P0. cbv iota in P0. apply some_inj in P0. subst o. cbn [cand_table truthy dset]. change (u "cand" ++ n2s 0) with (u "cand0"). apply cand0_stays; [lia|reflexivity|].
    intros i c r Hin. assert (Hd : dget i ((zero_id, None) :: rest) = Some (Some (c :: r))) by (apply dget_In_nodup; [exact P2|right; exact Hin]). rewrite P3, named_last in Hd. destruct (last_desc _ i) as [d|] eqn:Ei; [|destruct (str_eqb i (u "0000000")); discriminate Hd].
    apply some_inj in Hd. apply some_inj in Hd. subst d. destruct (Ds _ _ Ei) as (x&X1&X2&_&X4). rewrite <- X4. exact (proj2 (H x X1 X2)).
Qed.
Print Assumptions C87_sftxt_html.

(** ** Each ending occurs, and the conditions are met *)
Definition fmt_run_args (fmt to : string) (files : list str) (mods : list string) : args := Args files (Some (u fmt)) (u to) (match mods with [] => None | _ => Some (map u mods) end) 160 false false.
Definition fmt_home (texts : list (str * str)) : surroundings :=
  Surroundings (fun f => dmem f texts) (fun f => match dget f texts with Some t => Ok t | None => Err OSError end) (Err OSError) (fun _ => []) (Oracle (fun _ => O) (fun _ l => l)).
Definition fmt_run (fmt : string) (x : str) (to : string) (mods : list string) : ending * bool :=
  let o := main (fmt_home [(u "x", x)]) framed (fmt_run_args fmt to [u "x"] mods) in (o_ending o, match o_stdout o with [] => true | _ => false end).
Lemma fmt_home_reads fmt to mods t : reads_text (fmt_home [(u "x", t)]) (fmt_run_args fmt to [u "x"] mods) fmt t.
Proof. split; [reflexivity|]. left. exists (u "x"). repeat split; discriminate. Qed.
Example C87_reasons :
  fmt_run "preflib" (pl_file pl_demo) "text" ["IRV"; "pairwise"]%string = (Done, false) /\ fmt_run "preflib" (pl_file pl_demo) "csvrank" [] = (Done, false) /\
  fmt_run "preflib" (pl_file (pl_demo ++ [PlRanking 1 [([], One 2); ([], One 4)]])) "abif" [] = (Uncaught IndexError, true) /\ fmt_run "preflib" (u "# nothing") "abif" [] = (Uncaught VotelineExn, true) /\
  fmt_run "debtally" (deb_sheet deb_demo) "text" [] = (Done, false) /\ fmt_run "debtally" (deb_sheet (deb_demo ++ [DebVote [Some 1; Some 2; None; Some 3]%N (u " ") (u "z") []])) "text" [] = (Uncaught IndexError, true) /\
  fmt_run "debtally" (u "no options") "text" [] = (Uncaught VotelineExn, true) /\
  fmt_run "nameq" nq_demo "text" ["IRV"%string] = (Done, false) /\ fmt_run "nameq" [] "irvjson" [] = (Uncaught ValueError, true) /\ fmt_run "nameq" [] "abif" [] = (Done, false) /\ fmt_run "nameq" (u "Ann=first") "abif" [] = (Uncaught ValueError, true).
Proof. repeat split; vm_compute; reflexivity. Qed.
Example C87_nonvacuous : draws_tables framed /\ schedule (s_irv (fmt_home [])) /\ bytes_only (s_sha1 (fmt_home [])) /\ text (pl_file pl_demo) /\ text (deb_sheet deb_demo) /\ text nq_demo /\
  (forall fmt to mods t, reads_text (fmt_home [(u "x", t)]) (fmt_run_args fmt to [u "x"] mods) fmt t) /\
  (exists raw m, convert_preflib_str_to_abif (pl_file pl_demo) = Ok raw /\ Z.of_nat (length raw) <= maxsize /\ convert_abif_to_jabmod raw false false false = Ok m /\ complaint (u "text") [u "IRV"] m = None) /\
  (exists raw m, convert_debtally_to_abif (fun _ => []) (deb_sheet deb_demo) [] = Ok raw /\ Z.of_nat (length raw) <= maxsize /\ convert_abif_to_jabmod raw false false false = Ok m /\ complaint (u "text") [u "IRV"] m = None) /\
  (exists m, convert_nameq_to_jabmod nq_demo = Ok m /\ complaint (u "text") [u "IRV"] m = None).
Proof.
  split; [intros w t; vm_compute; lia|]. split; [intros n l; apply Permutation_refl|]. split; [intros s x []|]. split; [vm_compute; reflexivity|]. split; [vm_compute; reflexivity|]. split; [vm_compute; reflexivity|]. split; [exact fmt_home_reads|].
  repeat split; repeat eexists; try (vm_compute; reflexivity); vm_compute; discriminate.
Qed.
(** The files of C51: a report, but no page; and the page can be made when the empty candidate has a name. *)
Definition sf_home (master : str) : surroundings := fmt_home [(u "master", master); (u "ballots", sf_file)].
Definition sf_run (master : str) (to : string) (mods : list string) : ending := o_ending (main (sf_home master) framed (fmt_run_args "sftxt" to [u "master"; u "ballots"] mods)).
Definition sf_named : str := sf_master ++ unlines [master_line "Candidate" "0000000" "nobody"].
Example C87_sftxt_nonvacuous : (exists sm, convert_sftxt_to_jabmod sf_master sf_file false = Ok sm /\ without_name sm (u "cand0") /\ ~ nameless_winners (sf_home sf_master) sm (jabmod_of_sf sm)) /\
  reads_files (sf_home sf_master) (fmt_run_args "sftxt" "text" [u "master"; u "ballots"] ["IRV"%string]) "sftxt" [sf_master; sf_file] /\
  (forall x, In x (map lookup_of (splitlines sf_master)) -> lk_type x = u "Candidate" -> lk_id x <> u "0000000" /\ sf_short_token (lk_desc x) <> u "cand0") /\
  sf_run sf_master "text" ["IRV"%string] = Done /\ sf_run sf_master "html" [] = Uncaught TypeError /\ sf_run sf_named "html" [] = Done /\ sf_run sf_named "text" ["IRV"%string] = Done /\ sf_run (u "short") "text" [] <> Done.
Proof.
  split; [|split; [|split; [|repeat split; try (vm_compute; reflexivity); vm_compute; discriminate]]].
  - destruct (convert_sftxt_to_jabmod sf_master sf_file false) as [sm|e] eqn:E; [|vm_compute in E; discriminate E]. exists sm. split; [reflexivity|].
    assert (G : match convert_sftxt_to_jabmod sf_master sf_file false with Ok sm => memb (u "cand0") (map fst (filter (fun kn => match snd kn with None => true | Some _ => false end) (sf_candidates sm))) && match IRV_dict_from_jabmod (s_irv (sf_home sf_master)) (jabmod_of_sf sm) with Ok d => (length (ir_winner d) <=? 1)%nat | Err _ => true end | Err _ => false end = true) by (vm_compute; reflexivity).
    rewrite E in G. apply andb_true_iff in G as (G1&G2). split.
    + apply memb_In, in_map_iff in G1 as ([k o]&Ek&G1). apply filter_In in G1 as (G1&Go). cbn [fst snd] in *. subst k. destruct o; [discriminate|exact G1].
    + intros (d&w&Ed&Hd&_). rewrite Ed in G2. apply Nat.leb_le in G2. lia.
  - split; [reflexivity|]. repeat (constructor; [split; reflexivity|]). constructor.
  - intros x Hx Ht. assert (G : forallb (fun x => negb (str_eqb (lk_type x) (u "Candidate")) || negb (str_eqb (lk_id x) (u "0000000")) && negb (str_eqb (sf_short_token (lk_desc x)) (u "cand0"))) (map lookup_of (splitlines sf_master)) = true) by (vm_compute; reflexivity).
    rewrite forallb_forall in G. specialize (G x Hx). rewrite Ht, str_eqb_refl in G. cbn [negb orb] in G. apply andb_true_iff in G as (G1&G2). apply negb_true_iff in G1, G2. split; apply str_eqb_neq; assumption.
Qed.
(** The other failure: nobody on the ballot of the only voter, so that IRV has several winners, and one has no name. *)
Definition sf_blank : surroundings := fmt_home [(u "master", sf_master); (u "ballots", unlines [image_line "000000002" "001" "0000000" "01"])].
Example C87_nameless_winners : (exists sm, convert_sftxt_to_jabmod sf_master (unlines [image_line "000000002" "001" "0000000" "01"]) false = Ok sm /\ nameless_winners sf_blank sm (jabmod_of_sf sm)) /\
  (forall to mods, In (to, mods) [("text"%string, ["IRV"%string]); ("irvjson"%string, []); ("json"%string, ["IRV"%string])] -> fails (main sf_blank framed (fmt_run_args "sftxt" to [u "master"; u "ballots"] mods)) TypeError) /\
  o_ending (main sf_blank framed (fmt_run_args "sftxt" "text" [u "master"; u "ballots"] [])) = Done.
Proof.
  split; [|split; [intros to mods [H|[H|[H|[]]]]; injection H as <- <-; split; vm_compute; reflexivity|vm_compute; reflexivity]].
  destruct (convert_sftxt_to_jabmod sf_master (unlines [image_line "000000002" "001" "0000000" "01"]) false) as [sm|e] eqn:E; [|vm_compute in E; discriminate E]. exists sm. split; [reflexivity|].
  assert (G : match convert_sftxt_to_jabmod sf_master (unlines [image_line "000000002" "001" "0000000" "01"]) false with Ok sm => memb (u "cand0") (map fst (filter (fun kn => match snd kn with None => true | Some _ => false end) (sf_candidates sm))) && match IRV_dict_from_jabmod (s_irv sf_blank) (jabmod_of_sf sm) with Ok d => (2 <=? length (ir_winner d))%nat && memb (u "cand0") (ir_winner d) | Err _ => false end | Err _ => false end = true) by (vm_compute; reflexivity).
  rewrite E in G. apply andb_true_iff in G as (G1&G2). destruct (IRV_dict_from_jabmod (s_irv sf_blank) (jabmod_of_sf sm)) as [d|] eqn:Ed; [|discriminate]. apply andb_true_iff in G2 as (G2&G3).
  exists d, (u "cand0"). split; [exact Ed|]. split; [apply Nat.leb_le, G2|]. split; [apply memb_In, G3|].
  apply memb_In, in_map_iff in G1 as ([k o]&Ek&G1). apply filter_In in G1 as (G1&Go). cbn [fst snd] in *. subst k. destruct o; [discriminate|exact G1].
Qed.
(** With and without the options, for a format that ignores them; for abif they matter. *)
Example C87_options_nonvacuous :
  let a := Args [u "x"] (Some (u "nameq")) (u "jabmod") (Some [u "IRV"]) 160 false false in let b := Args [u "x"] (Some (u "nameq")) (u "jabmod") (Some [u "jcomments"; u "IRV"]) 160 true true in
  same_but_reading a b /\ input_format a <> Ok (u "abif") /\ main (fmt_home [(u "x", nq_demo)]) framed b = main (fmt_home [(u "x", nq_demo)]) framed a /\
  (let a := Args [u "x"] (Some (u "abif")) (u "jabmod") None 160 false false in let b := Args [u "x"] (Some (u "abif")) (u "jabmod") None 160 false true in
   same_but_reading a b /\ main (fmt_home [(u "x", u "2:A>B")]) framed b <> main (fmt_home [(u "x", u "2:A>B")]) framed a).
Proof.
  assert (Q : same_but_reading (Args [u "x"] (Some (u "nameq")) (u "jabmod") (Some [u "IRV"]) 160 false false) (Args [u "x"] (Some (u "nameq")) (u "jabmod") (Some [u "jcomments"; u "IRV"]) 160 true true)).
  { do 4 (split; [reflexivity|]). intros x Hx. cbn [modifiers a_modifier In]. split; [intros [E|H0]; [destruct (Hx (eq_sym E))|exact H0]|intro H0; right; exact H0]. }
  cbv zeta. split; [exact Q|]. split; [vm_compute; discriminate|]. split; [apply C87_options; [exact Q|vm_compute; discriminate]|]. split; [repeat split; auto|]. intro H. apply (f_equal o_stdout) in H. vm_compute in H. discriminate H.
Qed.
