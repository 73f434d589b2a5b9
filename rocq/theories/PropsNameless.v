(** * PropsNameless: C90, what the results show for a candidate without a name *)

From Coq Require Import Lia Permutation.
From Verif Require Import PyBase PyFacts Jabmod PairwiseModel Spec PairwiseFacts PropsPairwise ScoreModel ScoreFacts PropsScore IrvModel IrvFacts IrvStrict IrvTrace PropsIrv PropsParser PropsChars.
From Verif Require Import ParserModel UrlText JsonText JsonFacts WriterModel ConsolidateFacts RoundtripParsed PropsRoundtrip SftxtModel JsonParse JsonParseFacts JabmodJson PropsJson ResultsJson PropsResults.
From Verif Require Import DiagramModel PropsDiagram HtmlModel ConvertModel PropsConvertText CliModel PropsCli PropsCliMore ScriptsModel PropsScripts PropsCounts PropsEnding PropsFormats PropsEndingMore PropsJabmodOut.
Local Open Scope Z_scope.
Local Open Scope res_scope.

(** ** Specification *)
(** The same election, with "None" for the name of every candidate that has none. *)
Definition called (o : option str) : str := match o with Some n => n | None => u "None" end.
Definition called_none (e : sf_jabmod) : sf_jabmod := SfJabmod (sf_metadata e) (map (fun kn => (fst kn, Some (called (snd kn)))) (sf_candidates e)) (sf_votelines e).
(** The election that is counted. *)
Definition tallied (a : args) (e : sf_jabmod) : jabmod := if memb (u "consolidate") (modifiers a) then consolidate (jabmod_of_sf e) else jabmod_of_sf e.
(** The output is the JSON of IRV, or the JSON of STAR. *)
Definition irv_json (a : args) : Prop := a_to a = u "irvjson" \/ (In (a_to a) [u "json"; u "paircountjson"] /\ In (u "IRV") (modifiers a)).
Definition star_json (a : args) : Prop := a_to a = u "json" /\ In (u "STAR") (modifiers a) /\ ~ In (u "IRV") (modifiers a) /\ ~ In (u "pairwise") (modifiers a).
(** The two JSON texts are objects with the same members, except for those of the list. *)
Definition same_except (ks : list string) (j j0 : json) : Prop := forall k, ~ In k (map u ks) -> jmember k j = jmember k j0.

(** ** Proofs *)

Lemma called_none_eq e : called_none e = all_with_names (jabmod_of_sf e).
Proof. unfold called_none, all_with_names, jabmod_of_sf. cbn [j_metadata j_candidates j_votelines]. rewrite map_map. reflexivity. Qed.
Lemma of_called_none e : jabmod_of_sf (called_none e) = jabmod_of_sf e.
Proof. rewrite called_none_eq. apply of_named. Qed.
Lemma nameless_called_none e : nameless (called_none e) = [].
Proof. rewrite called_none_eq. apply nameless_named. Qed.
Lemma nameless_iff e k : In k (nameless e) <-> In (k, None) (sf_candidates e).
Proof.
  unfold nameless. split.
  - intro H. apply in_map_iff in H as ([k' o]&<-&H). apply filter_In in H as (H&Hs). cbn [snd fst] in *. destruct o; [discriminate|exact H].
  - intro H. apply in_map_iff. exists (k, None). split; [reflexivity|]. apply filter_In. split; [exact H|reflexivity].
Qed.
Lemma tallied_eq a e : (if has "consolidate" (modifiers a) then consolidate (jabmod_of_sf e) else jabmod_of_sf e) = tallied a e.
Proof. reflexivity. Qed.
Lemma tie_iff s e m d : IRV_dict_from_jabmod (s_irv s) m = Ok d -> nameless_tie (nameless e) d = true <-> nameless_winners s e m.
Proof.
  intro Ed. unfold nameless_tie, nameless_winners, without_name. rewrite andb_true_iff, Nat.ltb_lt, existsb_exists. split.
  - intros (H1&w&H2&H3). exists d, w. split; [exact Ed|]. split; [exact H1|]. split; [exact H2|]. apply nameless_iff, memb_In, H3.
  - intros (d'&w&Ed'&H2&H3&H4). rewrite Ed in Ed'. apply ok_inj in Ed'. subst d'. split; [exact H2|]. exists w. split; [exact H3|]. apply memb_In, nameless_iff, H4.
Qed.
(** Two runs with the same options, on the election and on the one with "None" for the missing names. *)
Lemma both_runs s s' rn a a' e : reads_election s a e -> reads_election s' a' (called_none e) -> same_run s s' a a' ->
  (exists reads, main s rn a = match render_as (nameless e) s rn (a_to a) (a_width a) (modifiers a) (tallied a e) with Ok out => Outcome reads (println out) Done | Err x => Outcome reads [] (Uncaught x) end) /\
  (exists reads, main s' rn a' = match render s rn (a_to a) (a_width a) (modifiers a) (tallied a e) with Ok out => Outcome reads (println out) Done | Err x => Outcome reads [] (Uncaught x) end).
Proof.
  intros R R' (S1&S2&S3&S4&S5). destruct (election_run s rn a e R) as (reads&E). destruct (election_run s' rn a' _ R') as (reads'&E'). rewrite tallied_eq in E. split; [exists reads; exact E|].
  exists reads'. rewrite E'. rewrite nameless_called_none, of_called_none, S3, S5. assert (Em : modifiers a' = modifiers a) by (unfold modifiers; rewrite S4; reflexivity). rewrite Em, tallied_eq. cbn [render_as]. rewrite (render_same s s') by exact S1. reflexivity.
Qed.
Lemma not_fmt a k : a_to a <> u k -> str_eqb (a_to a) (u k) = false.
Proof. intro N. destruct (str_eqb_spec (a_to a) (u k)); [congruence|reflexivity]. Qed.

(** ** C90 *)
(** Apart from html (C87), jabmod (C88) and the JSON of IRV and STAR, the run prints what it would if the name were the text None; only when IRV is to be shown and
    has several winners, one of them without a name, it fails. *)
Theorem C90_others : forall s s' rn a a' e, reads_election s a e -> reads_election s' a' (called_none e) -> same_run s s' a a' ->
  ~ In (a_to a) [u "html"; u "html_snippet"; u "jabmod"] -> ~ irv_json a -> ~ star_json a -> (shows_irv (a_to a) (modifiers a) -> ~ nameless_winners s e (tallied a e)) ->
  o_ending (main s rn a) = o_ending (main s' rn a') /\ o_stdout (main s rn a) = o_stdout (main s' rn a').
Proof.
  intros s s' rn a a' e R R' S Hh Hi Hst Hw. destruct (both_runs s s' rn a a' e R R' S) as ((reads&E)&(reads'&E')).
  assert (G : render_as (nameless e) s rn (a_to a) (a_width a) (modifiers a) (tallied a e) = render s rn (a_to a) (a_width a) (modifiers a) (tallied a e)).
  { destruct (nameless e) as [|k none] eqn:En; [reflexivity|]. cbn [render_as]. unfold render_unnamed.
    rewrite (not_fmt a "html") by (intro X; apply Hh; rewrite X; cbn; tauto). rewrite (not_fmt a "html_snippet") by (intro X; apply Hh; rewrite X; cbn; tauto).
    rewrite (not_fmt a "jabmod") by (intro X; apply Hh; rewrite X; cbn; tauto). rewrite (not_fmt a "irvjson") by (intro X; apply Hi; left; exact X). cbn [orb].
    destruct (str_eqb_spec (a_to a) (u "json")) as [Ej|Nj].
    - rewrite Ej. cbn [orb]. destruct (has "IRV" (modifiers a)) eqn:Ei; [destruct Hi; right; split; [rewrite Ej; cbn; tauto|apply memb_In, Ei]|]. change (str_eqb (u "json") (u "paircountjson")) with false. cbn [orb].
      destruct (has "pairwise" (modifiers a)) eqn:Ep; [reflexivity|]. destruct (has "STAR" (modifiers a)) eqn:Es; [|reflexivity]. destruct Hst. split; [exact Ej|]. split; [apply memb_In, Es|]. split; apply memb_nIn; assumption.
    - cbn [orb]. destruct (str_eqb_spec (a_to a) (u "paircountjson")) as [Ec|Nc].
      + destruct (has "IRV" (modifiers a)) eqn:Ei; [destruct Hi; right; split; [rewrite Ec; cbn; tauto|apply memb_In, Ei]|]. reflexivity.
      + destruct (str_eqb_spec (a_to a) (u "text")) as [Et|Nt]; [|reflexivity]. rewrite Et in *.
        change (render s rn (u "text") (a_width a) (modifiers a) (tallied a e)) with (text_output (modifiers a) (text_sections s rn (a_width a) (tallied a e))). unfold text_sections. cbn [map fst snd]. eval_fmt. cbv iota. cbn [text_output].
        destruct (has "IRV" (modifiers a)) eqn:Ei; [|reflexivity]. assert (Hs : shows_irv (u "text") (modifiers a)) by (right; split; [cbn; tauto|apply memb_In, Ei]). specialize (Hw Hs).
        destruct (IRV_dict_from_jabmod (s_irv s) (tallied a e)) as [d|x] eqn:Ed; [|reflexivity]. cbn [bind]. rewrite <- En. destruct (nameless_tie (nameless e) d) eqn:T; [|reflexivity]. apply (tie_iff s e _ d Ed) in T. contradiction. }
  rewrite G in E. rewrite E, E'. destruct (render _ _ _ _ _ _); split; reflexivity.
Qed.
Print Assumptions C90_others.

(** The JSON of a result that is changed at some keys. *)
Definition ok_json (j : json) : Prop := json_text_ok j = true /\ nodup_keys j.
Lemma ok_member l k x : ok_json (JObj l) -> In (k, x) l -> text k /\ ok_json x.
Proof.
  intros (T&N) H. cbn [json_text_ok] in T. rewrite forallb_forall in T. specialize (T _ H). cbn [fst snd] in T. apply andb_prop in T as (T1&T2). split; [exact T1|]. split; [exact T2|exact (nodup_obj l N k x H)].
Qed.
Lemma ok_obj l : NoDup (map fst l) -> (forall k x, In (k, x) l -> text k /\ ok_json x) -> ok_json (JObj l).
Proof. intros Nd H. split; [apply text_obj_intro; intros k x Hx; destruct (H k x Hx) as (A&B&_); auto|apply nodup_obj_intro; [exact Nd|]; intros k x Hx; apply (H k x Hx)]. Qed.
Lemma ok_at_key k f j : ok_json j -> (forall x, ok_json x -> ok_json (f x)) -> ok_json (at_key k f j).
Proof.
  intros O Hf. destruct j as [| | | | |l]; try exact O. cbn [at_key]. apply ok_obj.
  - rewrite map_map. rewrite (map_ext _ fst); [exact (proj1 (proj2 O))|]. intros [x v]. cbn [fst]. destruct (str_eqb x k); reflexivity.
  - intros x v H. apply in_map_iff in H as ([x' v']&E&H). destruct (ok_member l x' v' O H) as (O1&O2). cbn [fst snd] in E. destruct (str_eqb x' k); injection E as <- <-; split; auto.
Qed.
Lemma ok_null_names none f j : ok_json j -> (forall x, ok_json x -> ok_json (f x)) -> ok_json (null_names none f j).
Proof. intros O Hf. unfold null_names. revert j O. induction none as [|k none IH]; intros j O; [exact O|]. cbn [fold_left]. apply IH, ok_at_key; assumption. Qed.
Lemma ok_to_null x : ok_json x -> ok_json (to_null x).
Proof. intro O. split; [reflexivity|exact I]. Qed.
Lemma member_at_key k f j k' : jmember k' (at_key k f j) = if str_eqb k' k then option_map f (jmember k' j) else jmember k' j.
Proof. destruct j as [| | | | |l]; try (destruct (str_eqb k' k); reflexivity). apply dget_at_key. Qed.
Lemma at_key_id k j : at_key k (fun x => x) j = j.
Proof. destruct j as [| | | | |l]; try reflexivity. cbn [at_key]. f_equal. rewrite <- (map_id l) at 2. apply map_ext. intros [x v]. cbn [fst snd]. destruct (str_eqb x k); reflexivity. Qed.
Lemma irv_json_render s rn a e d : irv_json a -> IRV_dict_from_jabmod (s_irv s) (tallied a e) = Ok d ->
  render s rn (a_to a) (a_width a) (modifiers a) (tallied a e) = Ok (dumps_indent 4 (json_of_irv (r_set_order rn) d)) /\
  render_as (nameless e) s rn (a_to a) (a_width a) (modifiers a) (tallied a e) =
    if nameless_tie (nameless e) d then Err TypeError else Ok (dumps_indent 4 (irv_unnamed (nameless e) d (json_of_irv (r_set_order rn) d))).
Proof.
  intros Hi Ed. assert (G : render s rn (a_to a) (a_width a) (modifiers a) (tallied a e) = Ok (dumps_indent 4 (json_of_irv (r_set_order rn) d))).
  { unfold render. destruct Hi as [->|([<-|[<-|[]]]&Hm)]; eval_fmt; cbv iota; cbn [orb]; rewrite ?(has_true _ _ Hm), Ed; reflexivity. }
  split; [exact G|]. destruct (nameless e) as [|k none].
  - cbn [render_as]. rewrite G. unfold nameless_tie, irv_unnamed. assert (Ex : existsb (fun w => memb w []) (ir_winner d) = false) by (induction (ir_winner d) as [|w ws IH]; [reflexivity|exact IH]). rewrite Ex. rewrite andb_false_r. rewrite (at_key_id (u "canddict") (json_of_irv (r_set_order rn) d) : at_key (u "canddict") (null_names [] to_null) _ = _). reflexivity.
  - cbn [render_as]. unfold render_unnamed. destruct Hi as [->|([<-|[<-|[]]]&Hm)]; eval_fmt; cbv iota; cbn [orb]; rewrite ?(has_true _ _ Hm), Ed; cbn [bind]; destruct (nameless_tie (k :: none) d); reflexivity.
Qed.
Lemma names_json e l : NoDup (dkeys (sf_candidates e)) -> l = map (fun kv => (fst kv, JStr (snd kv))) (j_candidates (jabmod_of_sf e)) ->
  null_names (nameless e) to_null (JObj l) = JObj (map (fun kn => (fst kn, name_json (snd kn))) (sf_candidates e)).
Proof.
  intros Nd ->. rewrite null_names_all by reflexivity. unfold jabmod_of_sf. cbn [j_candidates]. rewrite !map_map. f_equal. apply map_ext_in. intros [k o] Hin. cbn [fst snd].
  destruct (memb k (nameless e)) eqn:Em.
  - apply memb_In, nameless_iff in Em. apply (dget_In_nodup _ _ _ Nd) in Hin. apply (dget_In_nodup _ _ _ Nd) in Em. rewrite Hin in Em. apply some_inj in Em. subst o. reflexivity.
  - destruct o as [n|]; [reflexivity|]. apply memb_nIn in Em. destruct Em. apply nameless_iff, Hin.
Qed.

(** The JSON of IRV: null instead of the name under canddict, and under winnerstr for a single winner; the rest is as with the name None.  With several winners, one of them
    without a name, the run fails with TypeError. *)
Theorem C90_irv : forall s s' rn a a' e d, reads_election s a e -> reads_election s' a' (called_none e) -> same_run s s' a a' -> irv_json a -> schedule (s_irv s) -> (forall l, Permutation (r_set_order rn l) l) ->
  irv_election (tallied a e) -> IRV_dict_from_jabmod (s_irv s) (tallied a e) = Ok d ->
  (nameless_winners s e (tallied a e) -> fails (main s rn a) TypeError) /\
  (~ nameless_winners s e (tallied a e) -> o_ending (main s rn a) = Done /\ exists out j out0 j0, o_stdout (main s rn a) = out ++ [10%N] /\ json_loads out = Ok j /\ o_stdout (main s' rn a') = out0 ++ [10%N] /\ json_loads out0 = Ok j0 /\
     same_except ["canddict"; "winnerstr"]%string j j0 /\
     member_is "winner" j (strings (ir_winner d)) /\
     member_is "canddict" j (JObj (map (fun kn => (fst kn, name_json (snd kn))) (sf_candidates e))) /\
     (forall w o, ir_winner d = [w] -> In (w, o) (sf_candidates e) -> member_is "winnerstr" j (name_json o)) /\
     (length (ir_winner d) <> 1%nat -> member_is "winnerstr" j (JStr (ir_winnerstr d)))).
Proof.
  intros s s' rn a a' e d R R' S Hi Ho Hso Hm Ed. destruct (both_runs s s' rn a a' e R R' S) as ((reads&E)&(reads'&E')). destruct (irv_json_render s rn a e d Hi Ed) as (G1&G2). rewrite G1 in E'. rewrite G2 in E.
  split; [intro H; apply (tie_iff s e _ d Ed) in H; rewrite H in E; rewrite E; split; reflexivity|]. intro H.
  destruct (nameless_tie (nameless e) d) eqn:T; [apply (tie_iff s e _ d Ed) in T; contradiction|]. rewrite E, E'. split; [reflexivity|].
  pose proof (election_storable s a e R) as St.
  assert (Ec : j_candidates (tallied a e) = j_candidates (jabmod_of_sf e)) by (unfold tallied; destruct (memb (u "consolidate") (modifiers a)); reflexivity).
  assert (Tx : forall c n, In (c, n) (j_candidates (tallied a e)) -> text c /\ text n) by (rewrite Ec; exact (st_cands _ St)).
  pose proof (irv_json_ok (s_irv s) (r_set_order rn) (tallied a e) d Ho Hso Hm Tx Ed) as Oj.
  assert (Nd : NoDup (dkeys (sf_candidates e))) by (rewrite <- keys_kept; apply St).
  destruct (irv_run (s_irv s) (tallied a e) Ho Hm) as (d'&Ed'&_&Ecd). rewrite Ed in Ed'. apply ok_inj in Ed'. subst d'.
  destruct (C27_winnerstr_exact _ _ d Ho Hm Ed) as (toks&names&P&_&F&Ews).
  assert (Oj' : ok_json (irv_unnamed (nameless e) d (json_of_irv (r_set_order rn) d))).
  { unfold irv_unnamed. apply ok_at_key; [|intros x Ox; apply ok_null_names; [exact Ox|exact ok_to_null]]. destruct (existsb _ _); [apply ok_at_key; [exact Oj|exact ok_to_null]|exact Oj]. }
  eexists. exists (irv_unnamed (nameless e) d (json_of_irv (r_set_order rn) d)). eexists. exists (json_of_irv (r_set_order rn) d).
  split; [reflexivity|]. split; [exact (loads_dumps (Some 4%nat) _ (proj1 Oj') (proj2 Oj'))|]. split; [reflexivity|]. split; [exact (loads_dumps (Some 4%nat) _ (proj1 Oj) (proj2 Oj))|].
  split; [|split; [|split; [|split]]].
  - intros k Hk. unfold irv_unnamed. rewrite member_at_key. destruct (str_eqb_spec k (u "canddict")) as [->|_]; [destruct Hk; cbn; tauto|]. destruct (existsb _ _); [|reflexivity]. rewrite member_at_key. destruct (str_eqb_spec k (u "winnerstr")) as [->|_]; [destruct Hk; cbn; tauto|reflexivity].
  - unfold member_is, irv_unnamed. rewrite member_at_key. change (str_eqb (u "winner") (u "canddict")) with false. cbv iota. destruct (existsb _ _); reflexivity.
  - unfold member_is, irv_unnamed. rewrite member_at_key, str_eqb_refl. assert (X : jmember (u "canddict") (if existsb (fun w => memb w (nameless e)) (ir_winner d) then at_key (u "winnerstr") to_null (json_of_irv (r_set_order rn) d) else json_of_irv (r_set_order rn) d) = Some (JObj (map (fun kv => (fst kv, JStr (snd kv))) (ir_canddict d)))) by (destruct (existsb _ _); reflexivity).
    rewrite X. cbn [option_map]. rewrite (names_json e _ Nd); [reflexivity|]. rewrite Ecd, Ec. reflexivity.
  - intros w o Ew Hin. unfold member_is, irv_unnamed. rewrite member_at_key. change (str_eqb (u "winnerstr") (u "canddict")) with false. cbv iota. rewrite Ew. cbn [existsb]. rewrite orb_false_r.
    rewrite Ew in P. apply Permutation_sym, Permutation_length_1_inv in P. subst toks. assert (X : exists n, names = [n] /\ dget w (j_candidates (tallied a e)) = Some n) by (clear - F; inversion F as [|x n l l' Fn F']; subst; inversion F'; subst; eauto). destruct X as (n&->&Fn). cbn [join] in Ews. rewrite Ec in Fn.
    assert (Hn : dget w (j_candidates (jabmod_of_sf e)) = Some (match o with Some n => n | None => u "None" end)).
    { apply dget_In_nodup; [rewrite keys_kept; exact Nd|]. unfold jabmod_of_sf. cbn [j_candidates]. exact (in_map (fun kn => (fst kn, match snd kn with Some n => n | None => u "None" end)) _ _ Hin). }
    rewrite Hn in Fn. apply some_inj in Fn. destruct (memb w (nameless e)) eqn:Em.
    + apply memb_In, nameless_iff in Em. apply (dget_In_nodup _ _ _ Nd) in Hin. apply (dget_In_nodup _ _ _ Nd) in Em. rewrite Hin in Em. apply some_inj in Em. subst o. reflexivity.
    + destruct o as [n'|]; [|apply memb_nIn in Em; destruct Em; apply nameless_iff, Hin]. cbn [name_json]. change (Some (JStr (ir_winnerstr d)) = Some (JStr n')). rewrite Ews, <- Fn. reflexivity.
  - intro Hl. unfold member_is, irv_unnamed. rewrite member_at_key. change (str_eqb (u "winnerstr") (u "canddict")) with false. cbv iota. destruct (existsb (fun w => memb w (nameless e)) (ir_winner d)) eqn:Ex; [|reflexivity].
    exfalso. unfold nameless_tie in T. rewrite Ex, andb_true_r in T. apply Nat.ltb_ge in T. destruct (ir_winner d) as [|w [|w2 ws]]; [discriminate Ex|exact (Hl eq_refl)|cbn [length] in T; lia].
Qed.
Print Assumptions C90_irv.

Lemma at_key_again k f j : (forall x, f (f x) = f x) -> at_key k f (at_key k f j) = at_key k f j.
Proof. intro Hf. destruct j as [| | | | |l]; try reflexivity. cbn [at_key]. f_equal. rewrite map_map. apply map_ext. intros [x v]. cbn [fst snd]. destruct (str_eqb x k) eqn:Ek; cbn [fst snd]; rewrite Ek; [rewrite Hf|]; reflexivity. Qed.
Lemma dget_map_if none (f : json -> json) c l : dget c (map (fun kv : str * json => if memb (fst kv) none then (fst kv, f (snd kv)) else kv) l) = if memb c none then option_map f (dget c l) else dget c l.
Proof.
  induction l as [|[k v] l IH]; [destruct (memb c none); reflexivity|]. cbn [map fst snd dget]. destruct (memb k none) eqn:Em; cbn [dget fst snd]; (destruct (str_eqb_spec c k) as [->|N]; [rewrite Em; reflexivity|exact IH]).
Qed.
Lemma star_json_render s rn a e st : star_json a -> STAR_result (tallied a e) = Ok st ->
  render s rn (a_to a) (a_width a) (modifiers a) (tallied a e) = Ok (dumps_indent 4 (json_of_star st)) /\
  render_as (nameless e) s rn (a_to a) (a_width a) (modifiers a) (tallied a e) = Ok (dumps_indent 4 (star_unnamed (nameless e) st (json_of_star st))).
Proof.
  intros (Ej&H1&H2&H3) Es. rewrite Ej. assert (G : render s rn (u "json") (a_width a) (modifiers a) (tallied a e) = Ok (dumps_indent 4 (json_of_star st))).
  { unfold render. eval_fmt. cbv iota. cbn [orb]. rewrite (has_false _ _ H2), (has_false _ _ H3), (has_true _ _ H1), Es. reflexivity. }
  split; [exact G|]. destruct (nameless e) as [|k none].
  - cbn [render_as]. rewrite G. unfold star_unnamed. cbn [memb]. rewrite !andb_false_r. cbn [orb]. rewrite (at_key_id (u "scores") (json_of_star st) : at_key (u "scores") (null_names [] (at_key (u "candname") to_null)) _ = _). reflexivity.
  - cbn [render_as]. unfold render_unnamed. eval_fmt. cbv iota. cbn [orb]. rewrite (has_false _ _ H2), (has_false _ _ H3), (has_true _ _ H1), Es. reflexivity.
Qed.
(** The JSON of STAR: null instead of the name under candname of the candidate, under fin1n and fin2n for a finalist and under winner if that candidate wins the runoff; in a tie the text has None.
    The rest is as with the name None. *)
Theorem C90_star : forall s s' rn a a' e bc st, reads_election s a e -> reads_election s' a' (called_none e) -> same_run s s' a a' -> star_json a ->
  let m := tallied a e in scorable m -> tallyable m -> dget k_ballotcount (j_metadata m) = Some (JInt bc) -> STAR_result m = Ok st ->
  o_ending (main s rn a) = Done /\ exists out j out0 j0, o_stdout (main s rn a) = out ++ [10%N] /\ json_loads out = Ok j /\ o_stdout (main s' rn a') = out0 ++ [10%N] /\ json_loads out0 = Ok j0 /\
    same_except ["scores"; "fin1n"; "fin2n"; "winner"]%string j j0 /\
    (exists f1 f2 rest o1 o2, member_is "ranklist" j (strings (f1 :: f2 :: rest)) /\ In (f1, o1) (sf_candidates e) /\ In (f2, o2) (sf_candidates e) /\
       member_is "fin1n" j (name_json o1) /\ member_is "fin2n" j (name_json o2) /\
       member_is "winner" j (if votes_over m f2 f1 <? votes_over m f1 f2 then name_json o1 else if votes_over m f1 f2 <? votes_over m f2 f1 then name_json o2
                             else JStr (u "tie " ++ called o1 ++ u " and " ++ called o2))) /\
    exists scores scores0, member_is "scores" j (JObj scores) /\ member_is "scores" j0 (JObj scores0) /\ map fst scores = map fst scores0 /\
      forall c o, In (c, o) (sf_candidates e) -> exists x x0, dget c scores = Some x /\ dget c scores0 = Some x0 /\ member_is "candname" x (name_json o) /\ same_except ["candname"]%string x x0.
Proof.
  intros s s' rn a a' e bc st R R' S Hj m Hs Ht Hb Es. destruct (both_runs s s' rn a a' e R R' S) as ((reads&E)&(reads'&E')). destruct (star_json_render s rn a e st Hj Es) as (G1&G2). rewrite G1 in E'. rewrite G2 in E. rewrite E, E'. split; [reflexivity|].
  pose proof (election_storable s a e R) as St.
  assert (Ec : j_candidates m = j_candidates (jabmod_of_sf e)) by (unfold m, tallied; destruct (memb (u "consolidate") (modifiers a)); reflexivity).
  assert (Tx : forall c n, In (c, n) (j_candidates m) -> text c /\ text n) by (rewrite Ec; exact (st_cands _ St)).
  assert (Nd : NoDup (dkeys (sf_candidates e))) by (rewrite <- keys_kept; apply St).
  assert (Nm : forall c o, In (c, o) (sf_candidates e) -> dget c (j_candidates m) = Some (called o)).
  { intros c o Hin. rewrite Ec. apply dget_In_nodup; [rewrite keys_kept; exact Nd|]. unfold jabmod_of_sf. cbn [j_candidates]. exact (in_map (fun kn => (fst kn, match snd kn with Some n => n | None => u "None" end)) _ _ Hin). }
  assert (Mn : forall c n, dget c (j_candidates m) = Some n -> exists o, In (c, o) (sf_candidates e) /\ n = called o).
  { intros c n H. rewrite Ec in H. apply dget_In in H. unfold jabmod_of_sf in H. cbn [j_candidates] in H. apply in_map_iff in H as ([c' o]&Eq&Hin). cbn [fst snd] in Eq. injection Eq as <- <-. exists o. auto. }
  assert (Nl : forall c o, In (c, o) (sf_candidates e) -> (if memb c (nameless e) then JNull else JStr (called o)) = name_json o).
  { intros c o Hin. destruct (memb c (nameless e)) eqn:Em.
    - apply memb_In, nameless_iff in Em. apply (dget_In_nodup _ _ _ Nd) in Hin. apply (dget_In_nodup _ _ _ Nd) in Em. rewrite Hin in Em. apply some_inj in Em. subst o. reflexivity.
    - destruct o as [n|]; [reflexivity|]. apply memb_nIn in Em. destruct Em. apply nameless_iff, Hin. }
  pose proof (star_json_ok m bc st Hs Ht Tx Hb Es) as Oj.
  destruct (C73_star_json m bc st Hs Ht Tx Hb Es) as (j0&f1&f2&n1&n2&rest&L0&(_&Sr&_&_&scores0&Sc&Sk&Sd)&D1&D2&_&F1&F2&F1n&F2n&V1&V2&_&Wn). pose proof (loads_dumps (Some 4%nat) _ (proj1 Oj) (proj2 Oj) : json_loads (dumps_indent 4 (json_of_star st)) = Ok (json_of_star st)) as L1. rewrite L1 in L0. apply ok_inj in L0. subst j0. clear L1.
  destruct (Mn _ _ D1) as (o1&I1&->). destruct (Mn _ _ D2) as (o2&I2&->).
  assert (Ef1 : st_fin1 st = f1) by (unfold member_is in F1; change (jmember (u "fin1") (json_of_star st)) with (Some (JStr (st_fin1 st))) in F1; congruence).
  assert (Ef2 : st_fin2 st = f2) by (unfold member_is in F2; change (jmember (u "fin2") (json_of_star st)) with (Some (JStr (st_fin2 st))) in F2; congruence).
  assert (Ev1 : st_fin1votes st = votes_over m f1 f2) by (unfold member_is in V1; change (jmember (u "fin1votes") (json_of_star st)) with (Some (JInt (st_fin1votes st))) in V1; congruence).
  assert (Ev2 : st_fin2votes st = votes_over m f2 f1) by (unfold member_is in V2; change (jmember (u "fin2votes") (json_of_star st)) with (Some (JInt (st_fin2votes st))) in V2; congruence).
  set (none := nameless e) in *. set (j0 := json_of_star st) in *. unfold star_unnamed. rewrite Ef1, Ef2, Ev1, Ev2.
  set (v1 := votes_over m f1 f2) in *. set (v2 := votes_over m f2 f1) in *. set (wb := (v2 <? v1) && memb f1 none || (v1 <? v2) && memb f2 none).
  set (blank := fun (b : bool) (k : str) (j : json) => if b then at_key k to_null j else j).
  assert (Bm : forall b k j k', jmember k' (blank b k j) = if str_eqb k' k && b then option_map to_null (jmember k' j) else jmember k' j).
  { intros b k j k'. unfold blank. destruct b; [rewrite andb_true_r; apply member_at_key|rewrite andb_false_r; reflexivity]. }
  assert (Bo : forall b k j, ok_json j -> ok_json (blank b k j)) by (intros b k j O; unfold blank; destruct b; [apply ok_at_key; [exact O|exact ok_to_null]|exact O]).
  set (j := at_key (u "scores") (null_names none (at_key (u "candname") to_null)) (blank (memb f1 none) (u "fin1n") (blank (memb f2 none) (u "fin2n") (blank wb (u "winner") j0)))).
  assert (Oj' : ok_json j).
  { unfold j. apply ok_at_key; [apply Bo, Bo, Bo; exact Oj|]. intros x Ox. apply ok_null_names; [exact Ox|]. intros y Oy. apply ok_at_key; [exact Oy|exact ok_to_null]. }
  assert (Jm : forall k, k <> u "scores" -> jmember k j = jmember k (blank (memb f1 none) (u "fin1n") (blank (memb f2 none) (u "fin2n") (blank wb (u "winner") j0)))).
  { intros k Hk. unfold j. rewrite member_at_key. destruct (str_eqb_spec k (u "scores")); [contradiction|reflexivity]. }
  eexists. exists j. eexists. exists j0. split; [reflexivity|]. split; [exact (loads_dumps (Some 4%nat) _ (proj1 Oj') (proj2 Oj'))|]. split; [reflexivity|]. split; [exact (loads_dumps (Some 4%nat) _ (proj1 Oj) (proj2 Oj))|].
  split; [|split].
  - intros k Hk. rewrite Jm by (intros ->; apply Hk; cbn; tauto). rewrite !Bm.
    destruct (str_eqb_spec k (u "fin1n")) as [->|_]; [destruct Hk; cbn; tauto|]. destruct (str_eqb_spec k (u "fin2n")) as [->|_]; [destruct Hk; cbn; tauto|]. destruct (str_eqb_spec k (u "winner")) as [->|_]; [destruct Hk; cbn; tauto|]. reflexivity.
  - exists f1, f2, rest, o1, o2. unfold member_is in *. rewrite !Jm by discriminate. rewrite !Bm.
    repeat match goal with |- context [str_eqb ?x ?y] => let v := eval vm_compute in (str_eqb x y) in change (str_eqb x y) with v end. cbn [andb]. cbv iota.
    split; [exact Sr|]. split; [exact I1|]. split; [exact I2|]. split; [|split].
    + rewrite F1n, <- (Nl f1 o1 I1). destruct (memb f1 none); reflexivity.
    + rewrite F2n, <- (Nl f2 o2 I2). destruct (memb f2 none); reflexivity.
    + rewrite Wn. rewrite <- (Nl f1 o1 I1), <- (Nl f2 o2 I2). fold v1 v2. unfold wb. destruct (Z.ltb_spec v2 v1), (Z.ltb_spec v1 v2); try lia; cbn [andb orb]; [destruct (memb f1 none); reflexivity|destruct (memb f2 none); reflexivity|reflexivity].
  - exists (map (fun kv => if memb (fst kv) none then (fst kv, at_key (u "candname") to_null (snd kv)) else kv) scores0), scores0. unfold member_is in *. split; [|split; [exact Sc|split]].
    + unfold j. rewrite member_at_key, str_eqb_refl, !Bm.
      repeat match goal with |- context [str_eqb ?x ?y] => let v := eval vm_compute in (str_eqb x y) in change (str_eqb x y) with v end. cbn [andb]. cbv iota. rewrite Sc. cbn [option_map]. rewrite null_names_all by (intro x; apply at_key_again; reflexivity). reflexivity.
    + rewrite map_map. apply map_ext. intros [k v]. cbn [fst]. destruct (memb k none); reflexivity.
    + intros c o Hin. destruct (Sd c _ (Nm c o Hin)) as (x0&X0&Xn&_). exists (if memb c none then at_key (u "candname") to_null x0 else x0), x0. rewrite dget_map_if, X0. split; [destruct (memb c none); reflexivity|]. split; [reflexivity|]. split.
      * rewrite <- (Nl c o Hin). unfold member_is in Xn. destruct (memb c none); [rewrite member_at_key, str_eqb_refl, Xn; reflexivity|exact Xn].
      * intros k Hk. destruct (memb c none); [|reflexivity]. rewrite member_at_key. destruct (str_eqb_spec k (u "candname")) as [->|_]; [destruct Hk; cbn; tauto|reflexivity].
Qed.
Print Assumptions C90_star.
(** ** Each case occurs *)
Definition nl_text : str := u "=A:[None]" ++ [10%N] ++ u "2:A/5>B/3" ++ [10%N] ++ u "1:B/4>A/1" ++ [10%N].
Definition nl_election : jabmod := match convert_abif_to_jabmod nl_text false false false with Ok m => m | Err _ => Jabmod [] [] [] end.
(** The election of that file, with no name instead of the name None. *)
Definition nl_e : sf_jabmod := SfJabmod (j_metadata nl_election) [(u "A", None); (u "B", Some (u "B"))] (j_votelines nl_election).
Definition nl_json : str := dumps_indent 4 (stored nl_e).
Definition nl_run (to : string) (mods : list string) : outcome * outcome :=
  (main (fmt_home [(u "x", nl_json)]) framed (fmt_run_args "jabmod" to [u "x"] mods), main (fmt_home [(u "x", nl_text)]) framed (fmt_run_args "abif" to [u "x"] mods)).
Lemma nl_storable : jabmod_of_sf nl_e = nl_election /\ storable nl_election.
Proof.
  split; [vm_compute; reflexivity|]. destruct (convert_abif_to_jabmod nl_text false false false) as [m|x] eqn:E; [|vm_compute in E; discriminate E].
  unfold nl_election. rewrite E. apply (C78_storable nl_text false false false m E). vm_compute. reflexivity.
Qed.
Example C90_nonvacuous :
  (forall to mods, ~ In (u "jcomments") (map u mods) -> reads_election (fmt_home [(u "x", nl_json)]) (fmt_run_args "jabmod" to [u "x"] mods) nl_e /\
     reads_election (fmt_home [(u "x", nl_text)]) (fmt_run_args "abif" to [u "x"] mods) (called_none nl_e) /\
     same_run (fmt_home [(u "x", nl_json)]) (fmt_home [(u "x", nl_text)]) (fmt_run_args "jabmod" to [u "x"] mods) (fmt_run_args "abif" to [u "x"] mods)) /\
  irv_json (fmt_run_args "jabmod" "irvjson" [u "x"] []) /\ star_json (fmt_run_args "jabmod" "json" [u "x"] ["STAR"%string]) /\
  irv_election nl_election /\ scorable nl_election /\ tallyable nl_election /\ dget k_ballotcount (j_metadata nl_election) = Some (JInt 3) /\ (exists st, STAR_result nl_election = Ok st) /\
  (exists d, IRV_dict_from_jabmod (s_irv (fmt_home [])) nl_election = Ok d /\ ir_winner d = [u "A"]) /\ ~ nameless_winners (fmt_home [(u "x", nl_json)]) nl_e nl_election /\
  (let shown o k := match json_loads (o_stdout o) with Ok j => jmember (u k) j | Err _ => None end in
   let (o, o0) := nl_run "irvjson" [] in shown o "winnerstr"%string = Some JNull /\ shown o0 "winnerstr"%string = Some (JStr (u "None")) /\
   let (o, o0) := nl_run "json" ["STAR"%string] in shown o "winner"%string = Some JNull /\ shown o "fin2n"%string = Some (JStr (u "B")) /\ shown o0 "winner"%string = Some (JStr (u "None"))) /\
  (let (o, o0) := nl_run "text" ["IRV"%string] in o_stdout o = o_stdout o0 /\ o_ending o = Done).
Proof.
  destruct nl_storable as (Ee&St). assert (E : convert_abif_to_jabmod nl_text false false false = Ok nl_election) by (vm_compute; reflexivity).
  destruct (C36_parsed_is_tallyable _ _ _ _ _ E ltac:(vm_compute; discriminate)) as (T1&T2&_&T3).
  split; [|split; [|split; [|split; [|split; [|split; [|split; [|split; [|split; [|split; [|split]]]]]]]]]].
  - intros to mods Hj. split; [|split; [|repeat split]].
    + do 6 right. rewrite <- Ee in St. destruct (stored_ok nl_e St) as (J1&J2&J3). exists nl_json, (stored nl_e). split; [apply fmt_home_reads|]. split; [exact (loads_dumps (Some 4%nat) _ J1 J2)|]. split; [exact J3|exact St].
    + left. exists nl_text, nl_election. split; [apply fmt_home_reads|]. split; [vm_compute; reflexivity|]. split; [|rewrite called_none_eq, Ee; reflexivity].
      change (a_cleanws (fmt_run_args "abif" to [u "x"] mods)) with false. change (a_add_scores (fmt_run_args "abif" to [u "x"] mods)) with false. rewrite has_false; [exact E|]. unfold modifiers, fmt_run_args. cbn [a_modifier]. destruct mods; [intros [H|[H|[H|[]]]]; discriminate H|exact Hj].
  - left. reflexivity.
  - split; [reflexivity|]. split; [left; reflexivity|]. split; intros [H|[]]; discriminate H.
  - apply T3. vm_compute. discriminate.
  - exact T2.
  - exact T1.
  - vm_compute. reflexivity.
  - eexists. vm_compute. reflexivity.
  - eexists. split; vm_compute; reflexivity.
  - intros (d&w&Ed&Hl&_). vm_compute in Ed. apply ok_inj in Ed. subst d. vm_compute in Hl. lia.
  - vm_compute. repeat split.
  - vm_compute. repeat split.
Qed.

(** ** C64: the null that core.py:420 stores for a line without a comment *)
(** A voteline with "comment": null is read as one without the member, whatever the order of the members. *)
Theorem C64_null_comment : forall l l', (forall k, k <> u "comment" -> dget k l = dget k l') ->
  In (dget (u "comment") l) [None; Some JNull] -> In (dget (u "comment") l') [None; Some JNull] -> voteline_of_json (JObj l) = voteline_of_json (JObj l').
Proof.
  intros l l' H H1 H2. unfold voteline_of_json, opt_member, member. assert (Ec : forall d : dict json, In (dget (u "comment") d) [None; Some JNull] -> match dget (u "comment") d with Some JNull | None => None | Some v => Some v end = None) by (intros d [Q|[Q|[]]]; rewrite <- Q; reflexivity).
  rewrite (Ec l H1), (Ec l' H2). rewrite !H by discriminate. reflexivity.
Qed.
Print Assumptions C64_null_comment.
Example C64_null_comment_sample : let v := [(u "qty", JInt 2); (u "prefs", JObj [(u "A", JObj [(u "rank", JInt 1)])])] in
  voteline_of_json (JObj ((u "comment", JNull) :: v)) = voteline_of_json (JObj v) /\ voteline_of_json (JObj v) <> None /\ voteline_of_json (JObj ((u "comment", JStr (u "#x")) :: v)) <> voteline_of_json (JObj v).
Proof. vm_compute. repeat split; discriminate. Qed.
