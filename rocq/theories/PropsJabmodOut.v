(** * PropsJabmodOut: C88, -t jabmod for every input format, and reading the result back *)

From Coq Require Import Lia Permutation.
From Verif Require Import PyBase PyFacts Jabmod PairwiseModel Spec PairwiseFacts PropsPairwise ScoreModel ScoreFacts IrvModel PropsIrv.
From Verif Require Import Regex RegexFacts ParserModel ParserSpec ParserFacts PropsParser UrlText UrlFacts JsonText JsonFacts WriterModel NameqModel TextFacts NameqFacts PropsNameq ConsolidateFacts PropsConvert RoundtripFile RoundtripParsed PropsRoundtrip.
From Verif Require Import PreflibModel DebtallyModel ImportSpec ImportFacts PreflibFacts DebtallyFacts PropsImport SftxtModel SftxtSpec SftxtFacts PropsSftxt SftxtFile PropsSftxtFile.
From Verif Require Import DiagramModel PropsDiagram JsonParse JsonParseFacts JabmodJson PropsJson PropsChars ResultsJson HtmlModel ConvertModel PropsConvertText CliModel PropsCli PropsCliMore ScriptsModel PropsScripts PropsPipe PropsCounts PropsEnding PropsFormats PropsEndingMore.
Local Open Scope Z_scope.
Local Open Scope res_scope.

(** ** Specification *)
(** An election whose candidates all have a name, as one whose candidates may have none. *)
Definition all_with_names (m : jabmod) : sf_jabmod := SfJabmod (j_metadata m) (map (fun kn => (fst kn, Some (snd kn))) (j_candidates m)) (j_votelines m).
(** The JSON object of an election: its metadata, its candidates with their names, null for a candidate without a name, and its votelines. *)
Definition name_json (o : option str) : json := match o with Some n => JStr n | None => JNull end.
Definition json_shows (j : json) (e : sf_jabmod) : Prop := exists l vs, j = JObj l /\
  dget (u "metadata") l = Some (JObj (sf_metadata e)) /\ dget (u "candidates") l = Some (JObj (map (fun kn => (fst kn, name_json (snd kn))) (sf_candidates e))) /\
  dget (u "votelines") l = Some (JArr vs) /\ mapO voteline_of_json vs = Some (sf_votelines e).
(** The run reads the election e: from text in one of the formats, without code points that are no characters. *)
Definition reads_election (s : surroundings) (a : args) (e : sf_jabmod) : Prop :=
  (exists t m, reads_text s a "abif" t /\ text t /\ convert_abif_to_jabmod t (a_cleanws a) (a_add_scores a) (has "jcomments" (modifiers a)) = Ok m /\ e = all_with_names m) \/
  (exists t raw m, reads_text s a "preflib" t /\ text t /\ convert_preflib_str_to_abif t = Ok raw /\ convert_abif_to_jabmod raw false false false = Ok m /\ e = all_with_names m) \/
  (exists t raw m, reads_text s a "debtally" t /\ text t /\ bytes_only (s_sha1 s) /\ convert_debtally_to_abif (s_sha1 s) t [] = Ok raw /\ convert_abif_to_jabmod raw false false false = Ok m /\ e = all_with_names m) \/
  (exists t m, reads_text s a "nameq" t /\ text t /\ convert_nameq_to_jabmod t = Ok m /\ e = all_with_names m) \/
  (exists t j m, reads_text s a "widj" t /\ convert_widj_to_jabmod (JStr t) = Ok j /\ jabmod_of_json j = Some m /\ storable m /\ e = all_with_names m) \/
  (exists master ballots more, reads_files s a "sftxt" (master :: ballots :: more) /\ text master /\ text ballots /\ convert_sftxt_to_jabmod master ballots false = Ok e) \/
  (exists t j, reads_text s a "jabmod" t /\ json_loads t = Ok j /\ json_shows j e /\ storable (jabmod_of_sf e)).

(** ** Proofs *)
Definition nameless (e : sf_jabmod) : list str := map fst (filter (fun kn => match snd kn with None => true | Some _ => false end) (sf_candidates e)).
Lemma of_named m : jabmod_of_sf (all_with_names m) = m.
Proof. destruct m as [md cs vs]. unfold jabmod_of_sf, all_with_names. cbn. f_equal. rewrite map_map. rewrite <- (map_id cs) at 2. apply map_ext. intros [k n]. reflexivity. Qed.
Lemma nameless_named m : nameless (all_with_names m) = [].
Proof. unfold nameless, all_with_names. cbn [sf_candidates]. induction (j_candidates m) as [|x l IH]; [reflexivity|]. cbn [map filter snd]. exact IH. Qed.
Lemma names_shown j e : json_shows j e -> jabmod_of_json (name_nulls j) = Some (jabmod_of_sf e) /\ null_named j = nameless e.
Proof.
  intros (l&vs&->&E1&E2&E3&E4). split.
  - unfold name_nulls, at_key, jabmod_of_json. set (g := fun c : json => match c with JObj l0 => JObj (map (fun kv => (fst kv, none_name (snd kv))) l0) | _ => c end).
    unfold member. rewrite !(dget_at_key (u "candidates") g l). change (str_eqb (u "metadata") (u "candidates")) with false. change (str_eqb (u "votelines") (u "candidates")) with false. rewrite str_eqb_refl. cbv iota. rewrite E1, E2, E3. cbn [option_map g].
    rewrite map_map. rewrite (mapO_map (fun x : str * option str => (fst (fst x, name_json (snd x)), none_name (snd (fst x, name_json (snd x))))) (entry str_of_json) (fun kn => (fst kn, match snd kn with Some n => n | None => u "None" end))).
    + rewrite E4. reflexivity.
    + intros [k [n|]] _; reflexivity.
  - unfold null_named, member, nameless. rewrite E2. clear. induction (sf_candidates e) as [|[k [n|]] cs IH]; [reflexivity|exact IH|]. cbn [map filter fst snd name_json is_null]. f_equal. exact IH.
Qed.
Lemma main_jabmod s rn a t : reads_text s a "jabmod" t -> exists reads, main s rn a =
  match load s a (u "jabmod") t [] with
  | Ok m => match render_as (unnamed (u "jabmod") t []) s rn (a_to a) (a_width a) (modifiers a) (if has "consolidate" (modifiers a) then consolidate m else m) with Ok out => Outcome reads (println out) Done | Err e => Outcome reads [] (Uncaught e) end
  | Err e => Outcome reads [] (Uncaught e)
  end.
Proof.
  intros (Ef&H). unfold main. rewrite Ef. change (memb (u "jabmod") validinfmts) with true. cbn [negb]. unfold read_input. 
  assert (X : forall e : exn, (match e with VotelineExn => if str_eqb (u "jabmod") (u "abif") then println (u "ERROR: " ++ voteline_message t) else [] | _ => [] end) = []) by (intros []; reflexivity).
  destruct H as [(f&A1&A2&A3&A4)|(A1&A2)]; rewrite A1.
  - destruct (str_eqb_spec f dash); [congruence|]. cbn [read_files]. rewrite A3, A4. cbn [app read_files]. exists [f]. change (load s a (u "jabmod") t [t]) with (load s a (u "jabmod") t []). change (unnamed (u "jabmod") t [t]) with (unnamed (u "jabmod") t []). destruct (load s a (u "jabmod") t []); [reflexivity|]. rewrite X. reflexivity.
  - rewrite str_eqb_refl, A2. exists [dash]. destruct (load s a (u "jabmod") t []); [reflexivity|]. rewrite X. reflexivity.
Qed.
Definition shown_run (s : surroundings) (rn : rendering) (a : args) (e : sf_jabmod) (o : outcome) : Prop :=
  exists reads, o = match render_as (nameless e) s rn (a_to a) (a_width a) (modifiers a) (if has "consolidate" (modifiers a) then consolidate (jabmod_of_sf e) else jabmod_of_sf e) with Ok out => Outcome reads (println out) Done | Err x => Outcome reads [] (Uncaught x) end.
Lemma election_run s rn a e : reads_election s a e -> shown_run s rn a e (main s rn a).
Proof.
  assert (G : forall fmt t m, reads_text s a fmt t -> In (u fmt) validinfmts -> u fmt <> u "sftxt" -> u fmt <> u "jabmod" -> load s a (u fmt) t [] = Ok m -> shown_run s rn a (all_with_names m) (main s rn a)).
  { intros fmt t m R V N1 N2 El. destruct (main_text s rn a fmt t R V N1 N2) as (reads&E). rewrite El in E. exists reads. rewrite nameless_named, of_named. exact E. }
  intros [(t&m&R&_&E&->)|[(t&raw&m&R&_&E1&E2&->)|[(t&raw&m&R&_&_&E1&E2&->)|[(t&m&R&_&E&->)|[(t&j&m&R&E1&E2&_&->)|[(master&ballots&more&R&_&_&E)|(t&j&R&E1&E2&_)]]]]]].
  - apply (G "abif"%string t); [exact R|cbn; tauto|discriminate|discriminate|]. unfold load. eval_fmt. exact E.
  - apply (G "preflib"%string t); [exact R|cbn; tauto|discriminate|discriminate|]. unfold load. eval_fmt. rewrite E1. exact E2.
  - apply (G "debtally"%string t); [exact R|cbn; tauto|discriminate|discriminate|]. unfold load. eval_fmt. rewrite E1. exact E2.
  - apply (G "nameq"%string t); [exact R|cbn; tauto|discriminate|discriminate|]. unfold load. eval_fmt. exact E.
  - apply (G "widj"%string t); [exact R|cbn; tauto|discriminate|discriminate|]. unfold load. eval_fmt. rewrite E1. cbn [bind]. unfold as_jabmod. rewrite E2. reflexivity.
  - pose proof (main_sftxt s rn a _ R ltac:(cbn [length]; lia)) as M. assert (L : load s a (u "sftxt") (last (master :: ballots :: more) []) (master :: ballots :: more) = Ok (jabmod_of_sf e)).
    { unfold load. eval_fmt. cbn [blob nth_error of_option bind]. rewrite E. reflexivity. }
    rewrite L in M. exists (a_input_file a). rewrite M. assert (Eu : unnamed (u "sftxt") (last (master :: ballots :: more) []) (master :: ballots :: more) = nameless e).
    { unfold unnamed. change (str_eqb (u "sftxt") (u "sftxt")) with true. cbv iota. cbn [blob nth_error of_option]. rewrite E. reflexivity. }
    rewrite Eu. reflexivity.
  - destruct (main_jabmod s rn a t R) as (reads&M). destruct (names_shown j e E2) as (N1&N2). assert (L : load s a (u "jabmod") t [] = Ok (jabmod_of_sf e)).
    { unfold load. eval_fmt. rewrite E1. cbn [bind]. unfold as_jabmod. rewrite N1. reflexivity. }
    rewrite L in M. exists reads. rewrite M. assert (Eu : unnamed (u "jabmod") t [] = nameless e).
    { unfold unnamed. change (str_eqb (u "jabmod") (u "sftxt")) with false. change (str_eqb (u "jabmod") (u "jabmod")) with true. cbv iota. rewrite E1. exact N2. }
    rewrite Eu. reflexivity.
Qed.

(** The elections of the formats can be stored. *)
Lemma storable_clean m : storable m -> clean m.
Proof. intros S1 v Hv. destruct (st_lines m S1 v Hv) as [A1 A2 _ _ _ _]. split; [exact A1|]. intros c p Hin. destruct (A2 c p Hin) as (B1&B2&B3). split; [exact B1|]. split; [intros x Ex; rewrite Ex in B2; exact B2|intros d Ed; rewrite Ed in B3; exact B3]. Qed.
Lemma storable_consolidated m : storable m -> storable (consolidate m).
Proof.
  intro H. rewrite (C44_exact m (storable_clean m H)). destruct H as [H1 H2 H3 H4 H5]. split; try assumption. cbn [j_votelines]. intros v Hv. apply in_map_iff in Hv as (w&<-&Hw). apply foe_incl in Hw. destruct (H5 w Hw) as [A1 A2 _ _ _ _]. split; try exact I; assumption.
Qed.
Lemma nameq_storable t m : convert_nameq_to_jabmod t = Ok m -> text t -> storable m.
Proof.
  intros E Ht. destruct (C43_every_line_counted t m E) as (_&_&_&Hn&Hsame&Hv). destruct (C43_kept t m E) as (Hq&Hk).
  assert (L : forall line, In line (splitlines t) -> text (strip line)) by (intros line Hl; apply (text_incl _ line); [apply strip_incl|exact (line_text t line Ht Hl)]).
  assert (T : forall v c p, In v (j_votelines m) -> In (c, p) (v_prefs v) -> text c).
  { intros v c p Hin Hcp. pose proof E as E'. unfold convert_nameq_to_jabmod in E'. apply bind_ok in E' as (vs&Ev&E'). apply ok_inj in E'. subst m. cbn [j_votelines] in Hin. destruct (mapM_In _ _ _ _ Ev Hin) as (line&Hl&El).
    destruct (nameq_ranks line v El) as (_&G&_). apply (in_map fst) in Hcp. cbn [fst] in Hcp. unfold dkeys in G. rewrite G in Hcp. apply in_map_iff in Hcp as ([k ws]&<-&Hin'). exact (parse_qs_text (strip line) (L line Hl) k ws Hin'). }
  assert (C : forall c, In c (cands m) -> text c).
  { intros c Hc. pose proof E as E'. unfold convert_nameq_to_jabmod in E'. apply bind_ok in E' as (vs&Ev&E'). apply ok_inj in E'. destruct (nameq_cands_ok vs) as (_&_&C3). assert (Ec : cands m = dkeys (nameq_cands vs)) by (subst m; reflexivity). rewrite Ec in Hc. apply C3 in Hc as (v&Hin&Hc).
    apply in_map_iff in Hc as ([k p]&<-&Hc). apply (T v k p); [subst m; exact Hin|exact Hc]. }
  split.
  - exact Hn.
  - intros c n Hin. rewrite (Hsame c n Hin). assert (text c) by (apply C; exact (in_map fst _ _ Hin)). auto.
  - unfold convert_nameq_to_jabmod in E. apply bind_ok in E as (vs&_&E). apply ok_inj in E. subst m. repeat constructor; cbn; intuition discriminate.
  - unfold convert_nameq_to_jabmod in E. apply bind_ok in E as (vs&_&E). apply ok_inj in E. subst m. cbn [j_metadata]. intros k j [H|[H|[]]]; injection H as <- <-; repeat split; reflexivity.
  - intros v Hin. destruct (Hk v Hin) as (K1&K2&K3&K4). split.
    + apply (Hv v Hin).
    + intros c p Hcp. destruct (K4 c p Hcp) as (->&->). split; [exact (T v c p Hin Hcp)|]. split; exact I.
    + rewrite K1. exact I.
    + rewrite K2. exact I.
    + rewrite K3. exact I.
    + apply (in_map v_nameq) in Hin. rewrite Hq in Hin. apply in_map_iff in Hin as (line&<-&Hl). exact (L line Hl).
Qed.
Lemma named_desc ls i n : named ls i = Some (Some n) -> exists x, In x ls /\ lk_desc x = n.
Proof.
  induction ls as [|x ls IH]; cbn [named]; [destruct (str_eqb i (u "0000000")); discriminate|]. intro H. destruct (named ls i) as [[n'|]|].
  - apply some_inj, some_inj in H. subst n'. destruct (IH eq_refl) as (y&Hy&E). exists y. split; [right; exact Hy|exact E].
  - destruct (_ && _)%bool; [|discriminate]. apply some_inj, some_inj in H. exists x. split; [left; reflexivity|exact H].
  - destruct (_ && _)%bool; [|discriminate]. apply some_inj, some_inj in H. exists x. split; [left; reflexivity|exact H].
Qed.
Lemma chars_text lo hi line : text line -> text (chars lo hi line).
Proof.
  intro H. apply (text_incl _ line); [|exact H]. intros c Hc. unfold chars in Hc. assert (In c (skipn (N.to_nat lo) line)) as Hs by (rewrite <- (firstn_skipn (N.to_nat hi - N.to_nat lo)); apply in_or_app; left; exact Hc).
  rewrite <- (firstn_skipn (N.to_nat lo) line). apply in_or_app. right. exact Hs.
Qed.
Lemma table_values pool : forall n t k o, In (k, o) (cand_table n pool t) -> In (k, o) t \/ exists i, In (i, o) pool.
Proof.
  induction pool as [|[i name] pool IH]; intros n t k o H; [left; exact H|]. cbn [cand_table] in H. apply IH in H as [H|(i'&H)].
  - apply In_dset in H as [(_&->)|H]; [right; exists i; left; reflexivity|left; exact H].
  - right. exists i'. right. exact H.
Qed.
Lemma sf_storable master ballots sm : convert_sftxt_to_jabmod master ballots false = Ok sm -> text master -> text ballots -> storable (jabmod_of_sf sm).
Proof.
  intros E Tm Tb. destruct (C51_only_acceptable _ _ _ _ E) as (contest&Acc&(gs&vs&B&F&Hbc&_)). destruct Acc as (H1&H2&H3&H4&H5). pose proof E as E0. unfold convert_sftxt_to_jabmod in E0. rewrite master_read in E0 by exact H1. cbn [bind] in E0. destruct (pool_of (splitlines master) H1) as (pool&P1&P2&P3). rewrite P1 in E0. cbn [bind] in E0.
  pose proof H3 as Hfirst. apply first_id_contest in H3. rewrite H3 in E0. rewrite ballots_read in E0; [|apply (mine_nonempty contest), H4|exact H2].
  destruct (C50_grouped pool contest (map image_of (splitlines ballots))) as (gs0&bs&Eb&B0&F0); [apply (good_votes pool _ contest _ P3), H5|exact H4|].
  rewrite Eb in E0. cbn [bind] in E0. destruct (ballot_lines pool false gs0 bs F0) as (vs0&Ev&Fv). rewrite Ev in E0. cbn [bind] in E0. apply ok_inj in E0.
  set (mdata := dset k_ballotcount (JInt (Z.of_nat (length vs0))) (dset (u "contestid") (JStr contest) (j_metadata emptyish))) in *.
  assert (Hc : clean (Jabmod mdata [] vs0)).
  { intros w Hv. cbn [j_votelines] in Hv. destruct (proj2 (Forall2_In _ _ _ Fv) w Hv) as (g&_&Hg). apply (group_line_clean _ _ _ _ Hg). }
  destruct (sf_usable master ballots sm E) as (U&_). pose proof (us_cands _ U) as Tx.
  assert (Lt : forall x, In x (map lookup_of (splitlines master)) -> text (lk_id x) /\ text (lk_desc x)).
  { intros x Hx. apply in_map_iff in Hx as (line&<-&Hl). pose proof (line_text master line Tm Hl) as Tl. unfold lookup_of. cbn [lk_id lk_desc]. split; [apply chars_text, Tl|]. apply (text_incl _ (chars 17 67 line)); [apply strip_incl|apply chars_text, Tl]. }
  assert (El : j_votelines (jabmod_of_sf sm) = map (fun v => vl (ballots_where (fun w => same_line v w) vs0) (v_prefs v)) (first_of_each vs0)).
  { rewrite <- E0. unfold jabmod_of_sf. cbn [sf_votelines j_votelines]. rewrite (C44_exact _ Hc). reflexivity. }
  split.
  - exact (proj1 (us_tally _ U)).
  - intros c n Hin. split; [apply Tx; exact (in_map fst _ _ Hin)|]. unfold jabmod_of_sf in Hin. cbn [j_candidates] in Hin. apply in_map_iff in Hin as ([k o]&Eq&Hin). cbn [fst snd] in Eq. injection Eq as <- <-. destruct o as [n|]; [|reflexivity].
    rewrite <- E0 in Hin. cbn [sf_candidates] in Hin. apply table_values in Hin as [[]|(i&Hin)]. apply (dget_In_nodup _ _ _ P2) in Hin. rewrite P3 in Hin. apply named_desc in Hin as (x&Hx&<-). exact (proj2 (Lt x Hx)).
  - rewrite <- E0. cbn [jabmod_of_sf sf_metadata j_metadata]. unfold mdata. apply NoDup_dset, NoDup_dset. repeat constructor; cbn; intuition discriminate.
  - intros k j Hin. rewrite <- E0 in Hin. cbn [jabmod_of_sf sf_metadata j_metadata] in Hin. unfold mdata in Hin. apply In_dset in Hin as [(->&->)|Hin]; [repeat split; reflexivity|]. apply In_dset in Hin as [(->&->)|Hin].
    + split; [reflexivity|]. split; [|exact I]. destruct Hfirst as (b1&x&a1&Eq&_&<-&_). cbn [json_text_ok]. apply (Lt x). rewrite Eq. apply in_or_app. right. left. reflexivity.
    + cbn in Hin. repeat destruct Hin as [Hin|Hin]; try injection Hin as <- <-; try (repeat split; reflexivity); destruct Hin.
  - intros v Hv. rewrite El in Hv. apply in_map_iff in Hv as (w&<-&Hw). apply foe_incl in Hw. destruct (Hc w Hw) as (C1&C2). split; try exact I; [exact C1|]. cbn [v_prefs vl]. intros c p Hin. destruct (C2 c p Hin) as (D1&D2&D3). split; [exact D1|]. split.
    + destruct (p_rating p) as [[z|x]|] eqn:Er; try exact I. exact (D2 x eq_refl).
    + destruct (p_nextdelim p) as [d|] eqn:Ed; [exact (D3 d eq_refl)|exact I].
Qed.
Lemma election_storable s a e : reads_election s a e -> storable (jabmod_of_sf e).
Proof.
  intros [(t&m&R&Ht&E&->)|[(t&raw&m&R&Ht&E1&E2&->)|[(t&raw&m&R&Ht&Hb&E1&E2&->)|[(t&m&R&Ht&E&->)|[(t&j&m&R&E1&E2&St&->)|[(master&ballots&more&R&T1&T2&E)|(t&j&R&E1&E2&St)]]]]]]; rewrite ?of_named.
  - exact (proj1 (C78_storable _ _ _ _ _ E Ht)).
  - exact (proj1 (C78_storable _ _ _ _ _ E2 (preflib_text t raw Ht E1))).
  - pose proof (debtally_text (s_sha1 s) t Hb Ht) as G. rewrite E1 in G. exact (proj1 (C78_storable _ _ _ _ _ E2 G)).
  - exact (nameq_storable t m E Ht).
  - exact St.
  - exact (sf_storable master ballots e E T1 T2).
  - exact St.
Qed.
(** What is written. *)
Lemma null_names_all none f l : (forall x, f (f x) = f x) -> null_names none f (JObj l) = JObj (map (fun kv => if memb (fst kv) none then (fst kv, f (snd kv)) else kv) l).
Proof.
  intro Hf. unfold null_names. revert l. induction none as [|k none IH]; intro l; cbn [fold_left].
  - f_equal. rewrite <- (map_id l) at 1. apply map_ext. reflexivity.
  - cbn [at_key]. rewrite IH, map_map. f_equal. apply map_ext. intros [x v]. cbn [fst snd memb]. destruct (str_eqb_spec x k) as [->|N].
    + cbn [fst snd]. cbn [orb]. destruct (memb k none); [rewrite Hf|]; reflexivity.
    + cbn [fst snd]. reflexivity.
Qed.
Definition stored (e : sf_jabmod) : json := at_key (u "candidates") (null_names (nameless e) to_null) (json_of_jabmod (jabmod_of_sf e)).
Lemma stored_eq e : NoDup (dkeys (sf_candidates e)) -> stored e = JObj [(u "candidates", JObj (map (fun kn => (fst kn, name_json (snd kn))) (sf_candidates e))); (u "metadata", JObj (sf_metadata e)); (u "votelines", JArr (map json_of_voteline (sf_votelines e)))].
Proof.
  intro Nd. unfold stored, at_key, json_of_jabmod. cbn [map fst snd]. rewrite str_eqb_refl. change (str_eqb (u "metadata") (u "candidates")) with false. change (str_eqb (u "votelines") (u "candidates")) with false. cbv iota.
  rewrite null_names_all by reflexivity. unfold jabmod_of_sf at 1. cbn [j_candidates]. rewrite !map_map. do 4 f_equal. apply map_ext_in. intros [k o] Hin. cbn [fst snd].
  destruct (memb k (nameless e)) eqn:Em.
  - apply memb_In in Em. unfold nameless in Em. apply in_map_iff in Em as ([k' o']&Ek&Hk). cbn [fst] in Ek. subst k'. apply filter_In in Hk as (Hk&Ho). cbn [snd] in Ho.
    apply (dget_In_nodup _ _ _ Nd) in Hin. apply (dget_In_nodup _ _ _ Nd) in Hk. rewrite Hin in Hk. apply some_inj in Hk. subst o'. destruct o; [discriminate|]. reflexivity.
  - destruct o as [n|]; [reflexivity|]. apply memb_nIn in Em. exfalso. apply Em. unfold nameless. apply in_map_iff. exists (k, None). split; [reflexivity|]. apply filter_In. auto.
Qed.
Lemma keys_kept e : dkeys (j_candidates (jabmod_of_sf e)) = dkeys (sf_candidates e).
Proof. unfold jabmod_of_sf, dkeys. cbn [j_candidates]. rewrite map_map. reflexivity. Qed.
Lemma stored_ok e : storable (jabmod_of_sf e) -> json_text_ok (stored e) = true /\ nodup_keys (stored e) /\ json_shows (stored e) e.
Proof.
  intro St. assert (Nd : NoDup (dkeys (sf_candidates e))) by (rewrite <- keys_kept; apply St). rewrite (stored_eq e Nd). destruct (json_jabmod_ok _ St) as (J1&J2).
  assert (P : json_text_ok (JObj (map (fun kn => (fst kn, name_json (snd kn))) (sf_candidates e))) = true /\ nodup_keys (JObj (map (fun kn => (fst kn, name_json (snd kn))) (sf_candidates e)))).
  { split.
    - apply text_obj_intro. intros k x Hx. apply in_map_iff in Hx as ([k' o]&Eq&Hin). cbn [fst snd] in Eq. injection Eq as <- <-.
      destruct (st_cands _ St k' (match o with Some n => n | None => u "None" end)) as (T1&T2); [unfold jabmod_of_sf; cbn [j_candidates]; exact (in_map (fun kn => (fst kn, match snd kn with Some n => n | None => u "None" end)) _ _ Hin)|].
      split; [exact T1|]. destruct o as [n|]; [exact T2|reflexivity].
    - apply nodup_obj_intro; [rewrite map_map; exact Nd|]. intros k x Hx. apply in_map_iff in Hx as ([k' o]&Eq&Hin). cbn [fst snd] in Eq. injection Eq as <- <-. destruct o; exact I. }
  set (C := JObj (map (fun kn => (fst kn, name_json (snd kn))) (sf_candidates e))) in *. 
  split; [|split].
  - unfold json_of_jabmod in J1. cbn [json_text_ok forallb fst snd] in J1 |- *. destruct P as (P1&_). change (json_text_ok C = true) in P1. unfold jabmod_of_sf in J1. cbn [j_metadata j_votelines] in J1.
    apply andb_prop in J1 as (_&J1). apply andb_true_intro. split; [|exact J1]. cbn [fst snd]. rewrite P1. reflexivity.
  - unfold json_of_jabmod in J2. destruct J2 as (K1&(_&K2)). split; [exact K1|]. split; [exact (proj2 P)|exact K2].
  - unfold json_shows. eexists. exists (map json_of_voteline (sf_votelines e)). split; [reflexivity|]. split; [reflexivity|]. split; [reflexivity|]. split; [reflexivity|].
    rewrite (mapO_map json_of_voteline voteline_of_json (fun v => v)); [rewrite map_id; reflexivity|]. intros v _. apply voteline_json.
Qed.
Definition consolidated (e : sf_jabmod) : sf_jabmod := SfJabmod (sf_metadata e) (sf_candidates e) (j_votelines (consolidate (jabmod_of_sf e))).
Lemma consolidated_sf e : jabmod_of_sf (consolidated e) = consolidate (jabmod_of_sf e).
Proof. reflexivity. Qed.
Lemma render_stored s rn w mods e : render_as (nameless e) s rn (u "jabmod") w mods (jabmod_of_sf e) = Ok (dumps_indent 4 (stored e)).
Proof.
  unfold render_as. destruct (nameless e) as [|k none] eqn:En.
  - change (render s rn (u "jabmod") w mods (jabmod_of_sf e)) with (Ok (dumps_indent 4 (json_of_jabmod (jabmod_of_sf e)))). unfold stored. rewrite En. reflexivity.
  - unfold stored. rewrite En. reflexivity.
Qed.

(** ** C88 *)
(** The election that the first run writes. *)
Definition as_asked (a : args) (e : sf_jabmod) : sf_jabmod := if has "consolidate" (modifiers a) then consolidated e else e.
Lemma jabmod_output s rn a e : reads_election s a e -> a_to a = u "jabmod" -> storable (jabmod_of_sf (as_asked a e)) /\ exists reads, main s rn a = Outcome reads (dumps_indent 4 (stored (as_asked a e)) ++ [10%N]) Done.
Proof.
  intros R Et. pose proof (election_storable s a e R) as St. destruct (election_run s rn a e R) as (reads&E). rewrite Et in E. unfold as_asked. destruct (has "consolidate" (modifiers a)).
  - rewrite <- consolidated_sf in E. change (nameless e) with (nameless (consolidated e)) in E. rewrite render_stored in E. split; [rewrite consolidated_sf; exact (storable_consolidated _ St)|]. exists reads. exact E.
  - rewrite render_stored in E. split; [exact St|]. exists reads. exact E.
Qed.
(** -t jabmod: the output is a JSON text of the election read, with null for the name of a candidate that has none; with -m consolidate, of the consolidated one. *)
Theorem C88_written : forall s rn a e, reads_election s a e -> a_to a = u "jabmod" -> o_ending (main s rn a) = Done /\
  exists out j, o_stdout (main s rn a) = out ++ [10%N] /\ json_loads out = Ok j /\
    (~ In (u "consolidate") (modifiers a) -> json_shows j e) /\
    (In (u "consolidate") (modifiers a) -> json_shows j (SfJabmod (sf_metadata e) (sf_candidates e) (j_votelines (consolidate (jabmod_of_sf e))))).
Proof.
  intros s rn a e R Et. destruct (jabmod_output s rn a e R Et) as (St&reads&->). split; [reflexivity|]. destruct (stored_ok _ St) as (J1&J2&J3). exists (dumps_indent 4 (stored (as_asked a e))), (stored (as_asked a e)).
  split; [reflexivity|]. split; [exact (loads_dumps (Some 4%nat) _ J1 J2)|]. unfold as_asked in J3 |- *. split; intro H.
  - rewrite (has_false _ _ H) in J3 |- *. exact J3.
  - rewrite (has_true _ _ H) in J3 |- *. exact J3.
Qed.
Print Assumptions C88_written.
(** Saved and given to abiftool -f jabmod, it is the same election again. *)
Theorem C88_read_back : forall s s' rn a a' e, reads_election s a e -> a_to a = u "jabmod" -> ~ In (u "consolidate") (modifiers a) -> reads_text s' a' "jabmod" (saved (o_stdout (main s rn a))) -> reads_election s' a' e.
Proof.
  intros s s' rn a a' e R Et Hc R'. destruct (jabmod_output s rn a e R Et) as (St&reads&E). rewrite E in R'. cbn [o_stdout] in R'. rewrite saved_json in R'. unfold as_asked in *. rewrite (has_false _ _ Hc) in *. destruct (stored_ok e St) as (J1&J2&J3).
  do 6 right. exists (dumps_indent 4 (stored e) ++ [10%N]), (stored e). split; [exact R'|]. split; [|auto]. apply loads_printed; [exact J1|exact J2|]. intros c [<-|[]]. reflexivity.
Qed.
Print Assumptions C88_read_back.
(** Two runs with the same options on the same election end in the same way and print the same, whatever the formats of their inputs. *)
Theorem C88_same_election : forall s s' rn a a' e, reads_election s a e -> reads_election s' a' e -> same_run s s' a a' ->
  o_ending (main s rn a) = o_ending (main s' rn a') /\ o_stdout (main s rn a) = o_stdout (main s' rn a').
Proof.
  intros s s' rn a a' e R R' (S1&S2&S3&S4&S5). destruct (election_run s rn a e R) as (reads&E). destruct (election_run s' rn a' e R') as (reads'&E').
  rewrite E, E', S3, S5. assert (Em : modifiers a' = modifiers a) by (unfold modifiers; rewrite S4; reflexivity). rewrite Em, (render_as_same _ s s') by exact S1. destruct (render_as _ _ _ _ _ _ _); split; reflexivity.
Qed.
Print Assumptions C88_same_election.
(** abiftool -f FMT X -t jabmod > Y; abiftool -f jabmod Y OPTIONS prints what abiftool -f FMT X OPTIONS does, for every format, output format and modifier; with -m consolidate in
    the first command too, if the OPTIONS have it. *)
Theorem C88_pipe : forall s s' rn a a0 a' e, reads_election s a e -> reads_election s a0 e -> a_to a0 = u "jabmod" -> (In (u "consolidate") (modifiers a0) -> In (u "consolidate") (modifiers a)) ->
  reads_text s' a' "jabmod" (saved (o_stdout (main s rn a0))) -> same_run s s' a a' ->
  o_ending (main s rn a) = o_ending (main s' rn a') /\ o_stdout (main s rn a) = o_stdout (main s' rn a').
Proof.
  intros s s' rn a a0 a' e R R0 Et Hc R' S. destruct (jabmod_output s rn a0 e R0 Et) as (St&reads0&E0). rewrite E0 in R'. cbn [o_stdout] in R'. rewrite saved_json in R'. destruct (stored_ok _ St) as (J1&J2&J3).
  assert (R2 : reads_election s' a' (as_asked a0 e)).
  { do 6 right. exists (dumps_indent 4 (stored (as_asked a0 e)) ++ [10%N]), (stored (as_asked a0 e)). split; [exact R'|]. split; [|auto]. apply loads_printed; [exact J1|exact J2|]. intros c [<-|[]]. reflexivity. }
  destruct (in_dec (list_eq_dec N.eq_dec) (u "consolidate") (modifiers a0)) as [Hi|Hn].
  - unfold as_asked in R2. rewrite (has_true _ _ Hi) in R2. destruct S as (S1&S2&S3&S4&S5). assert (Em : modifiers a' = modifiers a) by (unfold modifiers; rewrite S4; reflexivity).
    destruct (election_run s rn a e R) as (reads&E). destruct (election_run s' rn a' _ R2) as (reads'&E'). rewrite E, E', S3, S5, Em, (has_true _ _ (Hc Hi)), (render_as_same _ s s') by exact S1.
    rewrite consolidated_sf, (C44_idempotent _ (storable_clean _ (election_storable _ _ _ R))). change (nameless (consolidated e)) with (nameless e).
    match goal with |- o_ending (match ?x with _ => _ end) = o_ending (match ?y with _ => _ end) /\ _ => change y with x; destruct x; split; reflexivity end.
  - unfold as_asked in R2. rewrite (has_false _ _ Hn) in R2. exact (C88_same_election s s' rn a a' e R R2 S).
Qed.
Print Assumptions C88_pipe.
(** Cases: San Francisco files with a candidate without a name, a PrefLib file, a tally sheet, nameq lines; and a second run that reads what the first one wrote. *)
Example C88_nonvacuous :
  (forall to mods, exists e, reads_election (sf_home sf_master) (fmt_run_args "sftxt" to [u "master"; u "ballots"] mods) e /\ without_name e (u "cand0") /\ sf_votelines e <> []) /\
  (forall to mods, exists e, reads_election (fmt_home [(u "x", pl_file pl_demo)]) (fmt_run_args "preflib" to [u "x"] mods) e /\ sf_votelines e <> []) /\
  (forall to mods, exists e, reads_election (fmt_home [(u "x", deb_sheet deb_demo)]) (fmt_run_args "debtally" to [u "x"] mods) e /\ sf_votelines e <> []) /\
  (forall to mods, exists e, reads_election (fmt_home [(u "x", nq_demo)]) (fmt_run_args "nameq" to [u "x"] mods) e /\ sf_votelines e <> []) /\
  (let o := main (sf_home sf_master) framed (fmt_run_args "sftxt" "jabmod" [u "master"; u "ballots"] []) in
   let s' := fmt_home [(u "x", saved (o_stdout o))] in
   forall to mods, reads_text s' (fmt_run_args "jabmod" to [u "x"] mods) "jabmod" (saved (o_stdout o)) /\ same_run (sf_home sf_master) s' (fmt_run_args "sftxt" to [u "master"; u "ballots"] mods) (fmt_run_args "jabmod" to [u "x"] mods)).
Proof.
  split; [|split; [|split; [|split]]].
  - intros to mods. destruct (convert_sftxt_to_jabmod sf_master sf_file false) as [sm|x] eqn:E; [|vm_compute in E; discriminate E]. exists sm. split.
    + do 5 right. left. exists sf_master, sf_file, []. split; [|split; [vm_compute; reflexivity|split; [vm_compute; reflexivity|exact E]]]. split; [reflexivity|]. constructor; [split; reflexivity|]. constructor; [split; reflexivity|constructor].
    + vm_compute in E. apply ok_inj in E. subst sm. split; [left; reflexivity|discriminate].
  - intros to mods. destruct (convert_preflib_str_to_abif (pl_file pl_demo)) as [raw|x] eqn:E; [|vm_compute in E; discriminate E]. destruct (convert_abif_to_jabmod raw false false false) as [m|x] eqn:E2; [|vm_compute in E; apply ok_inj in E; subst raw; vm_compute in E2; discriminate E2].
    exists (all_with_names m). split; [right; left; exists (pl_file pl_demo), raw, m; split; [apply fmt_home_reads|]; split; [vm_compute; reflexivity|]; auto|]. exact (proj1 (C29_well_formed _ _ _ _ _ E2)).
  - intros to mods. destruct (convert_debtally_to_abif (fun _ => []) (deb_sheet deb_demo) []) as [raw|x] eqn:E; [|vm_compute in E; discriminate E]. destruct (convert_abif_to_jabmod raw false false false) as [m|x] eqn:E2; [|vm_compute in E; apply ok_inj in E; subst raw; vm_compute in E2; discriminate E2].
    exists (all_with_names m). split; [right; right; left; exists (deb_sheet deb_demo), raw, m; split; [apply fmt_home_reads|]; split; [vm_compute; reflexivity|]; split; [intros ? ? []|]; auto|]. exact (proj1 (C29_well_formed _ _ _ _ _ E2)).
  - intros to mods. destruct (convert_nameq_to_jabmod nq_demo) as [m|x] eqn:E; [|vm_compute in E; discriminate E]. exists (all_with_names m). split; [do 3 right; left; exists nq_demo, m; split; [apply fmt_home_reads|]; split; [vm_compute; reflexivity|]; auto|].
    intro H. vm_compute in E. apply ok_inj in E. subst m. discriminate H.
  - cbv zeta. intros to mods. split; [apply fmt_home_reads|]. repeat split; reflexivity.
Qed.
