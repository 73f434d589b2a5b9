(** * PropsObj: C96, the object that -t jabmod prints, key by key *)

From Coq Require Import Lia Permutation.
From Verif Require Import PyBase PyFacts Jabmod PairwiseModel Spec PairwiseFacts PropsPairwise ScoreModel ScoreFacts IrvModel PropsIrv.
From Verif Require Import Regex RegexFacts ParserModel ParserSpec ParserFacts PropsParser UrlText UrlFacts JsonText JsonFacts WriterModel NameqModel TextFacts NameqFacts PropsNameq ConsolidateFacts PropsConvert RoundtripFile RoundtripParsed PropsRoundtrip.
From Verif Require Import PreflibModel DebtallyModel ImportSpec ImportFacts PreflibFacts DebtallyFacts PropsImport SftxtModel SftxtSpec SftxtFacts PropsSftxt SftxtFile PropsSftxtFile.
From Verif Require Import DiagramModel PropsDiagram JsonParse JsonParseFacts JabmodJson PropsJson PropsChars ResultsJson HtmlModel ConvertModel PropsConvertText CliModel PropsCli PropsCliMore ScriptsModel PropsScripts PropsPipe PropsCounts PropsEnding PropsFormats PropsEndingMore.
From Verif Require Import PropsWidj PropsJabmodOut ArgvModel ObjModel ObjFacts ObjReadable.
Local Open Scope Z_scope.
Local Open Scope res_scope.

(** ** Reading *)
Lemma abif_object_shows add j m : abif_object add j m -> json_shows j (all_with_names m).
Proof.
  intros (vs&->&F). eexists. exists vs. split; [reflexivity|]. split; [reflexivity|]. split; [|split; [reflexivity|apply (lines_read (abif_line add)); [apply abif_line_read|exact F]]].
  cbn [all_with_names sf_candidates]. unfold names_of. change (Some (JObj (map (fun kv : str * str => (fst kv, JStr (snd kv))) (j_candidates m))) = Some (JObj (map (fun kn : str * option str => (fst kn, name_json (snd kn))) (map (fun kn : str * str => (fst kn, Some (snd kn))) (j_candidates m))))). rewrite map_map. reflexivity.
Qed.
Lemma nameq_lines_read t m : convert_nameq_to_jabmod t = Ok m -> mapO voteline_of_json (map (fun v => JObj [(u "qty", JInt 1); (u "prefs", JObj (map (fun cp => (fst cp, JObj (arranged [TheRank] (snd cp)))) (v_prefs v))); (u "nameq", or_null (v_nameq v))]) (j_votelines m)) = Some (j_votelines m).
Proof.
  intro E. destruct (C43_kept t m E) as (Hq&Hk). rewrite (mapO_map _ _ (fun v => v)); [rewrite map_id; reflexivity|]. intros v Hv. destruct (Hk v Hv) as (K1&K2&K3&K4). assert (Q : v_qty v = 1).
  { unfold convert_nameq_to_jabmod in E. apply bind_ok in E as (vs&Ev&E). apply ok_inj in E. subst m. destruct (mapM_In _ _ _ _ Ev Hv) as (line&_&El). exact (proj1 (nameq_line_shape line v El)). }
  destruct v as [q ps c p i n]. cbn [v_qty v_prefs v_comment v_prefstr v_voterid v_nameq] in *. subst q c p i.
  assert (X : mapO (entry pref_of_json) (map (fun cp => (fst cp, JObj (arranged [TheRank] (snd cp)))) ps) = Some ps).
  { rewrite (mapO_map _ _ (fun x => x)); [rewrite map_id; reflexivity|]. intros [c p] Hin. destruct (K4 c p Hin) as (R1&R2). destruct p as [r g d]. cbn [p_rating p_nextdelim] in *. subst. destruct r; reflexivity. }
  revert X. generalize (map (fun cp => (fst cp, JObj (arranged [TheRank] (snd cp)))) ps). intros l X. destruct n as [n|]; match goal with |- _ = Some (Voteline _ _ ?a ?b ?d ?e) => change (match mapO (entry pref_of_json) l with Some prefs => Some (Voteline 1 prefs a b d e) | None => None end = Some (Voteline 1 ps a b d e)) end; rewrite X; reflexivity.
Qed.
Lemma nameq_object_shows t j m : convert_nameq_to_jabmod t = Ok m -> nameq_object j m -> json_shows j (all_with_names m).
Proof.
  intros E ->. eexists. eexists. split; [reflexivity|]. split; [reflexivity|]. split; [|split; [reflexivity|exact (nameq_lines_read t m E)]].
  cbn [all_with_names sf_candidates]. unfold names_of. change (Some (JObj (map (fun kv : str * str => (fst kv, JStr (snd kv))) (j_candidates m))) = Some (JObj (map (fun kn : str * option str => (fst kn, name_json (snd kn))) (map (fun kn : str * str => (fst kn, Some (snd kn))) (j_candidates m))))). rewrite map_map. reflexivity.
Qed.
Lemma nameq_plain t m : convert_nameq_to_jabmod t = Ok m -> Forall2 plain_line (map (fun v => JObj [(u "qty", JInt 1); (u "prefs", JObj (map (fun cp => (fst cp, JObj (arranged [TheRank] (snd cp)))) (v_prefs v))); (u "nameq", or_null (v_nameq v))]) (j_votelines m)) (j_votelines m).
Proof.
  intro E. destruct (C43_kept t m E) as (Hq&Hk). assert (Q : forall v, In v (j_votelines m) -> v_qty v = 1).
  { intros v Hv. unfold convert_nameq_to_jabmod in E. apply bind_ok in E as (vs&Ev&E). apply ok_inj in E. subst m. destruct (mapM_In _ _ _ _ Ev Hv) as (line&_&El). exact (proj1 (nameq_line_shape line v El)). }
  assert (K : forall v, In v (j_votelines m) -> forall c p, In (c, p) (v_prefs v) -> p_rating p = None /\ p_nextdelim p = None) by (intros v Hv; apply (Hk v Hv)). clear -Q K.
  induction (j_votelines m) as [|v l IH]; cbn [map]; constructor; [|apply IH; intros; [apply Q|eapply K]; try right; eassumption].
  eexists. eexists. split; [reflexivity|]. split; [cbn; rewrite (Q v (or_introl eq_refl)); reflexivity|]. split; [reflexivity|]. specialize (K v (or_introl eq_refl)). clear -K. unfold candidates_shown. induction (v_prefs v) as [|[c p] ps IH]; cbn [map]; constructor; [|apply IH; intros c' p' Hin; apply (K c' p'); right; exact Hin].
  cbn [fst snd]. split; [reflexivity|]. exists [TheRank; TheRating; TheNext]. split; [apply Permutation_refl|]. destruct (K c p (or_introl eq_refl)) as (R1&R2). destruct p as [r g d]. cbn [p_rating p_nextdelim] in *. subst. destruct r; reflexivity.
Qed.
Lemma merged_plain j v : merged_line j v -> plain_line j v.
Proof. intros (ps&->&F&_). eexists. exists ps. split; [reflexivity|]. split; [reflexivity|]. split; [reflexivity|exact F]. Qed.
Lemma sf_object_shows j m : sf_object j m -> json_shows j m.
Proof. intros (vs&->&F). eexists. exists vs. split; [reflexivity|]. split; [reflexivity|]. split; [reflexivity|]. split; [reflexivity|]. apply (lines_read merged_line); [apply merged_line_read|exact F]. Qed.

(** ** Loading *)
(** An object whose votelines are plain, next to the record. *)
Definition plain_object (j : json) (lines : list voteline) : Prop := exists l vs, j = JObj l /\ dget (u "votelines") l = Some (JArr vs) /\ Forall2 plain_line vs lines.
Lemma abif_plain add j m : abif_object add j m -> plain_object j (j_votelines m).
Proof.
  intros (vs&->&F). eexists. exists vs. split; [reflexivity|]. split; [reflexivity|]. induction F as [|x v l l' H _ IH]; constructor; [exact (abif_line_plain add _ _ H)|exact IH].
Qed.
Lemma sf_plain j m : sf_object j m -> plain_object j (sf_votelines m).
Proof. intros (vs&->&F). eexists. exists vs. split; [reflexivity|]. split; [reflexivity|]. induction F as [|x v l l' H _ IH]; constructor; [exact (merged_plain _ _ H)|exact IH]. Qed.
Lemma sr_imp {A B} (R R' : A -> B -> Prop) x y : same_result R x y -> (forall a b, x = Ok a -> y = Ok b -> R a b -> R' a b) -> same_result R' x y.
Proof. destruct x, y; cbn; auto. Qed.
Lemma load_sim s a fmt t blobs : fmt <> u "jabmod" -> same_result (fun j m => plain_object j (j_votelines m)) (load_obj s a fmt t blobs) (load s a fmt t blobs).
Proof.
  intro N. unfold load_obj, load. destruct (str_eqb fmt (u "abif")).
  { apply (sr_imp (abif_object (a_add_scores a)) _ _ _ (convert_sim _ _ _ _)). intros j m _ _ H. exact (abif_plain _ j m H). }
  destruct (str_eqb fmt (u "debtally")).
  { apply (sr_bind eq); [apply sr_refl|]. intros raw ? <-. apply (sr_imp (abif_object false) _ _ _ (convert_sim _ _ _ _)). intros j m _ _ H. exact (abif_plain _ j m H). }
  destruct (str_eqb_spec fmt (u "jabmod")) as [E|_]; [destruct (N E)|]. destruct (str_eqb fmt (u "nameq")).
  { apply (sr_imp nameq_object _ _ _ (nameq_sim t)). intros j m _ E ->. eexists. eexists. split; [reflexivity|]. split; [reflexivity|]. exact (nameq_plain t m E). }
  destruct (str_eqb fmt (u "preflib")).
  { apply (sr_bind eq); [apply sr_refl|]. intros raw ? <-. apply (sr_imp (abif_object false) _ _ _ (convert_sim _ _ _ _)). intros j m _ _ H. exact (abif_plain _ j m H). }
  destruct (str_eqb fmt (u "sftxt")).
  { apply (sr_bind eq); [apply sr_refl|]. intros b0 ? <-. apply (sr_bind eq); [apply sr_refl|]. intros b1 ? <-. pose proof (sf_sim b0 b1) as G. destruct (convert_sftxt_obj b0 b1), (convert_sftxt_to_jabmod b0 b1 false); cbn in G |- *; try contradiction; [|exact G]. exact (sf_plain _ _ G). }
  unfold convert_widj_to_jabmod, convert_widj_in. reflexivity.
Qed.
Lemma render_jabmod none s rn w mods m : exists out, render_as none s rn (u "jabmod") w mods m = Ok out.
Proof. unfold render_as. destruct none; eexists; reflexivity. Qed.

Lemma names_ok e : storable (jabmod_of_sf e) -> readable (JObj (map (fun kn => (fst kn, name_json (snd kn))) (sf_candidates e))).
Proof.
  intro St. apply readable_obj.
  - rewrite map_map. change (NoDup (dkeys (sf_candidates e))). rewrite <- keys_kept. apply St.
  - intros k x Hin. apply in_map_iff in Hin as ([c o]&E&Hin). cbn [fst snd] in E. injection E as <- <-.
    destruct (st_cands _ St c (match o with Some n => n | None => u "None" end)) as (T1&T2); [unfold jabmod_of_sf; cbn [j_candidates]; exact (in_map (fun kn => (fst kn, match snd kn with Some n => n | None => u "None" end)) _ _ Hin)|].
    split; [exact T1|]. destruct o as [n|]; (split; [|exact I]); [exact T2|reflexivity].
Qed.
Lemma named_names m : JObj (map (fun kn => (fst kn, name_json (snd kn))) (sf_candidates (all_with_names m))) = names_of m.
Proof. unfold names_of. cbn [all_with_names sf_candidates]. rewrite map_map. reflexivity. Qed.
(** What the object of a run must be: it shows the election, its votelines are plain, and its text can be read. *)
Definition good_object (j : json) (e : sf_jabmod) : Prop := json_shows j e /\ plain_object j (sf_votelines e) /\ readable j.
Lemma abif_good add j m : abif_object add j m -> storable m -> good_object j (all_with_names m).
Proof.
  intros H St. split; [exact (abif_object_shows add j m H)|]. split; [exact (abif_plain add j m H)|]. destruct H as (vs&->&F). apply object_ok.
  - rewrite <- named_names. apply names_ok. rewrite of_named. exact St.
  - apply meta_readable, St.
  - apply readable_arr. apply (lines_ok (abif_line add) vs (j_votelines m)); [apply abif_line_ok|exact F|apply St].
Qed.
Lemma sf_good j e : sf_object j e -> storable (jabmod_of_sf e) -> good_object j e.
Proof.
  intros H St. split; [exact (sf_object_shows j e H)|]. split; [exact (sf_plain j e H)|]. destruct H as (vs&->&F). apply object_ok.
  - exact (names_ok e St).
  - exact (meta_readable _ St).
  - apply readable_arr. apply (lines_ok merged_line vs (sf_votelines e)); [apply merged_ok|exact F|apply St].
Qed.
Lemma nameq_good t j m : convert_nameq_to_jabmod t = Ok m -> nameq_object j m -> storable m -> good_object j (all_with_names m).
Proof.
  intros E H St. split; [exact (nameq_object_shows t j m E H)|]. split; [rewrite H; eexists; eexists; split; [reflexivity|]; split; [reflexivity|exact (nameq_plain t m E)]|]. rewrite H. apply object_ok.
  - rewrite <- named_names. apply names_ok. rewrite of_named. exact St.
  - apply meta_readable, St.
  - apply readable_arr. intros x Hin. pose proof (nameq_plain t m E) as F. apply in_map_iff in Hin as (v&<-&Hv). destruct (C43_kept t m E) as (_&Hk). destruct (Hk v Hv) as (_&_&_&K). pose proof (st_lines m St v Hv) as Sl.
    assert (P : readable (JObj (map (fun cp => (fst cp, JObj (arranged [TheRank] (snd cp)))) (v_prefs v)))).
    { apply (shown_ok _ v); [|exact Sl]. clear -K. unfold candidates_shown. induction (v_prefs v) as [|[c p] ps IH]; cbn [map]; constructor; [|apply IH; intros c' p' Hin; apply (K c' p'); right; exact Hin].
      cbn [fst snd]. split; [reflexivity|]. exists [TheRank; TheRating; TheNext]. split; [apply Permutation_refl|]. destruct (K c p (or_introl eq_refl)) as (R1&R2). destruct p as [r g d]. cbn [p_rating p_nextdelim] in *. subst. destruct r; reflexivity. }
    apply readable_obj; [cbn; repeat constructor; cbn; intuition discriminate|]. intros k x [Ex|[Ex|[Ex|[]]]]; injection Ex as <- <-; (split; [reflexivity|]); [split; [reflexivity|exact I]|exact P|]. destruct Sl as [_ _ _ _ _ S6]. destruct (v_nameq v); (split; [|exact I]); [exact S6|reflexivity].
Qed.
(** Consolidating keeps this. *)
Lemma consolidated_good j e : good_object j e -> storable (jabmod_of_sf e) -> exists j', consolidate_obj j = Ok j' /\ good_object j' (consolidated e).
Proof.
  intros ((l&vs&->&J1&J2&J3&J4)&(l'&vs'&El&E&F)&R) St. injection El as <-. rewrite J3 in E. injection E as <-.
  destruct (consolidate_object (JObj l) l vs (jabmod_of_sf e) eq_refl J3 F) as (ws&G1&G2). exists (JObj (dset (u "votelines") (JArr ws) l)). split; [exact G1|]. split; [|split].
  - exists (dset (u "votelines") (JArr ws) l), ws. split; [reflexivity|]. rewrite !dget_dset. change (str_eqb (u "metadata") (u "votelines")) with false. change (str_eqb (u "candidates") (u "votelines")) with false. rewrite str_eqb_refl. cbv iota. split; [exact J1|]. split; [exact J2|]. split; [reflexivity|]. apply (lines_read merged_line); [apply merged_line_read|exact G2].
  - exists (dset (u "votelines") (JArr ws) l), ws. split; [reflexivity|]. split; [apply dset_same_get|]. cbn [consolidated sf_votelines]. clear -G2. induction G2 as [|x v a b H _ IH]; constructor; [exact (merged_plain _ _ H)|exact IH].
  - apply readable_lines; [exact R|]. apply (lines_ok merged_line ws (j_votelines (consolidate (jabmod_of_sf e)))); [apply merged_ok|exact G2|]. exact (st_lines _ (storable_consolidated _ St)).
Qed.
Lemma text_read s a fmt t : reads_text s a fmt t -> exists reads blobs, read_input s a = (reads, Got t blobs).
Proof.
  intros (_&[(f&A1&A2&A3&A4)|(A1&A2)]); unfold read_input; rewrite A1.
  - destruct (str_eqb_spec f dash); [congruence|]. cbn [read_files]. rewrite A3, A4. cbn [read_files]. eauto.
  - rewrite str_eqb_refl, A2. eauto.
Qed.
Lemma files_read s a fmt ts : reads_files s a fmt ts -> (2 <= length ts)%nat -> exists t, read_input s a = (a_input_file a, Got t ts).
Proof.
  intros (_&F) L. assert (Er : forall t0 blobs reads, exists t, read_files s (a_input_file a) t0 blobs reads = (reads ++ a_input_file a, Got t (blobs ++ ts))).
  { clear L. induction F as [|f t fs ts (E1&E2) F IH]; intros t0 blobs reads; cbn [read_files]; [exists t0; rewrite !app_nil_r; reflexivity|]. rewrite E1, E2. destruct (IH t (blobs ++ [t]) (reads ++ [f])) as (t'&IH'). exists t'. rewrite IH', <- !app_assoc. reflexivity. }
  unfold read_input. pose proof (same_length _ _ _ F) as Ln. destruct (a_input_file a) as [|f [|f' fs]]; cbn [length] in Ln; try lia; apply (Er [] [] []).
Qed.
Lemma exact_ok s rn a fmt t blobs reads j : a_to a = u "jabmod" -> input_format a = Ok fmt -> In fmt validinfmts -> read_input s a = (reads, Got t blobs) -> load_obj s a fmt t blobs = Ok j ->
  main_exact s rn a = match (if has "consolidate" (modifiers a) then consolidate_obj j else Ok j) with Ok j' => Outcome reads (dumps_indent 4 j' ++ [10%N]) Done | Err e => Outcome reads [] (Uncaught e) end.
Proof.
  intros Et Ef Hv Er El. unfold main_exact. rewrite Et. change (negb (str_eqb (u "jabmod") (u "jabmod"))) with false. cbv iota. rewrite Ef. rewrite (proj2 (memb_In fmt validinfmts) Hv). cbn [negb]. rewrite Er, El. reflexivity.
Qed.
Lemma sr_ok {A B} (R : A -> B -> Prop) x y : same_result R x (Ok y) -> exists a, x = Ok a /\ R a y.
Proof. destruct x; cbn; [eauto|contradiction]. Qed.
Lemma election_object s a e : reads_election s a e -> input_format a <> Ok (u "jabmod") -> exists fmt reads t blobs j, input_format a = Ok fmt /\ In fmt validinfmts /\ read_input s a = (reads, Got t blobs) /\ load_obj s a fmt t blobs = Ok j /\ good_object j e.
Proof.
  intros R N. pose proof (election_storable s a e R) as St. destruct R as [(t&m&R&_&E&->)|[(t&raw&m&R&_&E1&E2&->)|[(t&raw&m&R&_&_&E1&E2&->)|[(t&m&R&_&E&->)|[(t&j&m&R&E1&E2&_&->)|[(master&ballots&more&R&_&_&E)|(t&j&R&E1&E2&_)]]]]]].
  - rewrite of_named in St. destruct (text_read s a _ t R) as (reads&blobs&Er). pose proof (convert_sim t (a_cleanws a) (a_add_scores a) (has "jcomments" (modifiers a))) as G. rewrite E in G. apply sr_ok in G as (j&Ej&Hj). exists (u "abif"), reads, t, blobs, j. split; [apply R|]. split; [cbn; tauto|]. split; [exact Er|]. split; [exact Ej|exact (abif_good _ j m Hj St)].
  - rewrite of_named in St. destruct (text_read s a _ t R) as (reads&blobs&Er). pose proof (convert_sim raw false false false) as G. rewrite E2 in G. apply sr_ok in G as (j&Ej&Hj). exists (u "preflib"), reads, t, blobs, j. split; [apply R|]. split; [cbn; tauto|]. split; [exact Er|]. split; [unfold load_obj; eval_fmt; rewrite E1; exact Ej|exact (abif_good _ j m Hj St)].
  - rewrite of_named in St. destruct (text_read s a _ t R) as (reads&blobs&Er). pose proof (convert_sim raw false false false) as G. rewrite E2 in G. apply sr_ok in G as (j&Ej&Hj). exists (u "debtally"), reads, t, blobs, j. split; [apply R|]. split; [cbn; tauto|]. split; [exact Er|]. split; [unfold load_obj; eval_fmt; rewrite E1; exact Ej|exact (abif_good _ j m Hj St)].
  - rewrite of_named in St. destruct (text_read s a _ t R) as (reads&blobs&Er). pose proof (nameq_sim t) as G. rewrite E in G. apply sr_ok in G as (j&Ej&Hj). exists (u "nameq"), reads, t, blobs, j. split; [apply R|]. split; [cbn; tauto|]. split; [exact Er|]. split; [unfold load_obj; eval_fmt; exact Ej|exact (nameq_good t j m E Hj St)].
  - discriminate E1.
  - destruct (files_read s a _ _ R ltac:(cbn [length]; lia)) as (t&Er). pose proof (sf_sim master ballots) as G. rewrite E in G. apply sr_ok in G as (j&Ej&Hj). exists (u "sftxt"), (a_input_file a), t, (master :: ballots :: more), j. split; [apply R|]. split; [cbn; tauto|]. split; [exact Er|]. split; [unfold load_obj; eval_fmt; exact Ej|exact (sf_good j e Hj St)].
  - destruct (N (proj1 R)).
Qed.

(** ** C96 *)
(** The functions that read a file and the records of the other theorems: they fail on the same inputs in the same way, and otherwise
    the object has these keys, in this order, and these values. *)
Theorem C96_abif : forall t cleanws add_scores storecomments, same_result (abif_object add_scores) (convert_abif_obj t cleanws add_scores storecomments) (convert_abif_to_jabmod t cleanws add_scores storecomments).
Proof. exact convert_sim. Qed.
Print Assumptions C96_abif.
Theorem C96_nameq : forall t, same_result nameq_object (convert_nameq_obj t) (convert_nameq_to_jabmod t).
Proof. exact nameq_sim. Qed.
Print Assumptions C96_nameq.
Theorem C96_sftxt : forall master ballots, same_result sf_object (convert_sftxt_obj master ballots) (convert_sftxt_to_jabmod master ballots false).
Proof. exact sf_sim. Qed.
Print Assumptions C96_sftxt.
(** Consolidating an object: every key but votelines stays as and where it is; the votelines are merged like those of the record, and have
    the keys prefs and qty only. *)
Theorem C96_consolidate : forall l vs m, dget (u "votelines") l = Some (JArr vs) -> Forall2 plain_line vs (j_votelines m) ->
  exists vs' l', consolidate_obj (JObj l) = Ok (JObj l') /\ map fst l' = map fst l /\ dget (u "votelines") l' = Some (JArr vs') /\ (forall k, k <> u "votelines" -> dget k l' = dget k l) /\
    Forall2 merged_line vs' (j_votelines (consolidate m)).
Proof.
  intros l vs m E F. destruct (consolidate_object (JObj l) l vs m eq_refl E F) as (vs'&G1&G2). exists vs', (dset (u "votelines") (JArr vs') l). split; [exact G1|]. split; [apply dkeys_dset_In, dget_Some_In; eauto|]. split; [apply dset_same_get|]. split; [|exact G2].
  intros k N. rewrite dget_dset. destruct (str_eqb_spec k (u "votelines")); [contradiction|reflexivity].
Qed.
Print Assumptions C96_consolidate.
(** -t jabmod for the formats other than jabmod: the run reads the same files and ends in the same way as [main] says; only what is printed at
    the end of a run that succeeds is another writing. *)
Theorem C96_run : forall s rn a, a_to a = u "jabmod" -> input_format a <> Ok (u "jabmod") ->
  main_exact s rn a = main s rn a \/ exists reads out j, main s rn a = Outcome reads (out ++ [10%N]) Done /\ main_exact s rn a = Outcome reads (dumps_indent 4 j ++ [10%N]) Done.
Proof.
  intros s rn a Et N. unfold main_exact, main. rewrite Et. change (negb (str_eqb (u "jabmod") (u "jabmod"))) with false. cbv iota. destruct (input_format a) as [fmt|e]; [|left; reflexivity]. assert (Nf : fmt <> u "jabmod") by congruence.
  destruct (negb (memb fmt validinfmts)); [left; reflexivity|]. destruct (read_input s a) as [reads [f|e|t blobs]]; [left; reflexivity|left; reflexivity|]. pose proof (load_sim s a fmt t blobs Nf) as G. destruct (load_obj s a fmt t blobs) as [j|e], (load s a fmt t blobs) as [m|e']; cbn [same_result] in G; try contradiction; [|subst; left; reflexivity].
  right. destruct G as (l&vs&->&E&F). destruct (has "consolidate" (modifiers a)).
  - destruct (consolidate_object (JObj l) l vs m eq_refl E F) as (vs'&G1&_). rewrite G1. destruct (render_jabmod (unnamed fmt t blobs) s rn (a_width a) (modifiers a) (consolidate m)) as (out&R). rewrite R. exists reads, out. eexists. split; reflexivity.
  - destruct (render_jabmod (unnamed fmt t blobs) s rn (a_width a) (modifiers a) m) as (out&R). rewrite R. exists reads, out, (JObj l). split; reflexivity.
Qed.
Print Assumptions C96_run.
(** What is printed is a JSON text of the election that was read (with -m consolidate, of the consolidated one). *)
Theorem C96_printed : forall s rn a e, reads_election s a e -> input_format a <> Ok (u "jabmod") -> a_to a = u "jabmod" ->
  exists reads out j, main_exact s rn a = Outcome reads (out ++ [10%N]) Done /\ out = dumps_indent 4 j /\ json_loads out = Ok j /\
    (~ In (u "consolidate") (modifiers a) -> json_shows j e) /\
    (In (u "consolidate") (modifiers a) -> json_shows j (SfJabmod (sf_metadata e) (sf_candidates e) (j_votelines (consolidate (jabmod_of_sf e))))).
Proof.
  intros s rn a e R N Et. destruct (election_object s a e R N) as (fmt&reads&t&blobs&j&E1&E2&E3&E4&G). pose proof (exact_ok s rn a fmt t blobs reads j Et E1 E2 E3 E4) as M. exists reads.
  destruct (in_dec (list_eq_dec N.eq_dec) (u "consolidate") (modifiers a)) as [H|H].
  - rewrite (has_true _ _ H) in M. destruct (consolidated_good j e G (election_storable s a e R)) as (j'&C1&(C2&_&(C3&C4))). rewrite C1 in M. exists (dumps_indent 4 j'), j'. split; [exact M|]. split; [reflexivity|]. split; [exact (loads_dumps (Some 4%nat) j' C3 C4)|]. split; [contradiction|]. intros _. exact C2.
  - rewrite (has_false _ _ H) in M. destruct G as (C2&_&(C3&C4)). exists (dumps_indent 4 j), j. split; [exact M|]. split; [reflexivity|]. split; [exact (loads_dumps (Some 4%nat) j C3 C4)|]. split; [auto|contradiction].
Qed.
Print Assumptions C96_printed.

(** ** JSON files *)
Lemma dict_of_pairs_nodup (l : dict json) : NoDup (map fst (dict_of_pairs l)) /\ forall k x, In (k, x) (dict_of_pairs l) -> In (k, x) l.
Proof.
  unfold dict_of_pairs. assert (G : forall (l d : dict json), NoDup (map fst d) -> NoDup (map fst (fold_left (fun d kv => dset (fst kv) (snd kv) d) l d)) /\ forall k x, In (k, x) (fold_left (fun d kv => dset (fst kv) (snd kv) d) l d) -> In (k, x) d \/ In (k, x) l).
  { clear l. induction l as [|[k v] l IH]; intros d Hd; cbn [fold_left]; [auto|]. destruct (IH (dset (fst (k, v)) (snd (k, v)) d)) as (I1&I2); [apply NoDup_dset, Hd|]. split; [exact I1|]. intros k' x Hin. destruct (I2 k' x Hin) as [H|H]; [|right; right; exact H]. apply In_dset in H as [(->&->)|H]; [right; left; reflexivity|left; exact H]. }
  destruct (G l [] ltac:(constructor)) as (G1&G2). split; [exact G1|]. intros k x Hin. destruct (G2 k x Hin) as [[]|H]. exact H.
Qed.
Lemma scan_nodup n : forall s j r, scan_once n s = Ok (j, r) -> nodup_keys j.
Proof.
  induction n as [|n IH]; intros s j r H; [discriminate H|].
  assert (El : forall k s l r, scan_elems (scan_once n) k s = Ok (l, r) -> forall x, In x l -> nodup_keys x).
  { clear -IH. induction k as [|k IHk]; intros s l r H x Hin; [discriminate H|]. cbn [scan_elems] in H. apply bind_ok in H as ([v r1]&H1&H). cbn [fst snd] in H. destruct (skip_ws r1) as [|c r2]; [discriminate H|].
    destruct (N.eqb c 93); [apply ok_inj in H; injection H as <- <-; destruct Hin as [<-|[]]; exact (IH _ _ _ H1)|]. destruct (N.eqb c 44); [|discriminate H]. apply bind_ok in H as ([vs r3]&H2&H). apply ok_inj in H. injection H as <- <-. destruct Hin as [<-|Hin]; [exact (IH _ _ _ H1)|exact (IHk _ _ _ H2 x Hin)]. }
  assert (Me : forall k s l r, scan_members (scan_once n) k s = Ok (l, r) -> forall key x, In (key, x) l -> nodup_keys x).
  { clear -IH. induction k as [|k IHk]; intros s l r H key x Hin; [discriminate H|]. cbn [scan_members] in H. destruct s as [|q s1]; [discriminate H|]. destruct (N.eqb q 34); [|discriminate H]. destruct (scanstring s1) as [[key1 s2]|]; [|discriminate H]. destruct (skip_ws s2) as [|c s3]; [discriminate H|]. destruct (N.eqb c 58); [|discriminate H].
    apply bind_ok in H as ([v r1]&H1&H). cbn [fst snd] in H. destruct (skip_ws r1) as [|e r2]; [discriminate H|]. destruct (N.eqb e 125); [apply ok_inj in H; injection H as <- <-; destruct Hin as [E|[]]; injection E as <- <-; exact (IH _ _ _ H1)|]. destruct (N.eqb e 44); [|discriminate H].
    apply bind_ok in H as ([vs r3]&H2&H). apply ok_inj in H. injection H as <- <-. destruct Hin as [E|Hin]; [injection E as <- <-; exact (IH _ _ _ H1)|exact (IHk _ _ _ H2 key x Hin)]. }
  assert (Nu : forall b s j r, scan_number b s = Ok (j, r) -> nodup_keys j).
  { clear. intros b s j r H. unfold scan_number in H. destruct s as [|c s]; [discriminate H|]. destruct (if N.eqb c 48 then _ else _) as [ds rest]. destruct ds; [destruct (starts_with _ _); discriminate H|]. destruct (float_follows rest); [discriminate H|]. apply ok_inj in H. injection H as <- <-. exact I. }
  cbn [scan_once] in H. destruct s as [|c s]; [discriminate H|]. destruct (N.eqb c 34); [destruct (scanstring s) as [[x y]|]; [|discriminate H]; apply ok_inj in H; injection H as <- <-; exact I|].
  destruct (N.eqb c 123).
  { destruct (skip_ws s) as [|e s'] eqn:Es; [discriminate H|]. destruct (N.eqb e 125); [apply ok_inj in H; injection H as <- <-; split; [constructor|exact I]|]. apply bind_ok in H as ([ms r1]&H1&H). apply ok_inj in H. injection H as <- <-. cbn [fst].
    destruct (dict_of_pairs_nodup ms) as (D1&D2). apply nodup_obj_intro; [exact D1|]. intros k x Hin. exact (Me _ _ _ _ H1 k x (D2 k x Hin)). }
  destruct (N.eqb c 91).
  { destruct (skip_ws s) as [|e s'] eqn:Es; [discriminate H|]. destruct (N.eqb e 93); [apply ok_inj in H; injection H as <- <-; exact I|]. apply bind_ok in H as ([ms r1]&H1&H). apply ok_inj in H. injection H as <- <-. apply nodup_arr_intro. exact (El _ _ _ _ H1). }
  repeat match type of H with context [starts_with ?a ?b] => destruct (starts_with a b) end; try discriminate H; try (apply ok_inj in H; injection H as <- <-; exact I); destruct (N.eqb c 45); try discriminate H; exact (Nu _ _ _ _ H).
Qed.
Lemma loads_nodup t j : json_loads t = Ok j -> nodup_keys j.
Proof.
  intro H. assert (G : forall t, (let* vr := scan_once (S (length t)) (skip_ws t) in match skip_ws (snd vr) with [] => Ok (fst vr) | _ => Err ValueError end) = Ok j -> nodup_keys j).
  { intros t' G. apply bind_ok in G as ([v r]&G1&G). cbn [fst snd] in G. destruct (skip_ws r); [|discriminate G]. apply ok_inj in G. subst v. exact (scan_nodup _ _ _ _ G1). }
  unfold json_loads in H. destruct t as [|c t]; [exact (G [] H)|]. destruct (N.eq_dec c 65279) as [->|Nc]; [discriminate H|]. apply (G (c :: t)). rewrite <- H. clear -Nc.
  repeat (match goal with |- _ = match ?x with _ => _ end => destruct x; try reflexivity end; try congruence).
Qed.
(** -f jabmod -t jabmod: any JSON value at all goes through, with all its keys in their order and all its values, whether abiftool knows them or not. *)
Theorem C96_through : forall s rn a t j, reads_text s a "jabmod" t -> json_loads t = Ok j -> a_to a = u "jabmod" -> ~ In (u "consolidate") (modifiers a) ->
  exists reads, main_exact s rn a = Outcome reads (dumps_indent 4 j ++ [10%N]) Done /\ (json_text_ok j = true -> json_loads (saved (dumps_indent 4 j ++ [10%N])) = Ok j).
Proof.
  intros s rn a t j R E Et H. destruct (text_read s a _ t R) as (reads&blobs&Er). exists reads. split.
  - rewrite (exact_ok s rn a (u "jabmod") t blobs reads j Et (proj1 R) ltac:(cbn; tauto) Er); [rewrite (has_false _ _ H); reflexivity|]. unfold load_obj. eval_fmt. exact E.
  - intro T. rewrite saved_json. apply loads_printed; [exact T|exact (loads_nodup t j E)|]. intros c [<-|[]]. reflexivity.
Qed.
Print Assumptions C96_through.
(** A text that is not JSON is refused, and nothing is printed. *)
Theorem C96_not_json : forall s rn a t x, reads_text s a "jabmod" t -> json_loads t = Err x -> a_to a = u "jabmod" -> exists reads, main_exact s rn a = Outcome reads [] (Uncaught x).
Proof.
  intros s rn a t x R E Et. destruct (text_read s a _ t R) as (reads&blobs&Er). exists reads. unfold main_exact. rewrite Et. change (negb (str_eqb (u "jabmod") (u "jabmod"))) with false. cbv iota. rewrite (proj1 R). change (memb (u "jabmod") validinfmts) with true. cbn [negb]. rewrite Er. unfold load_obj. eval_fmt. rewrite E. destruct x; reflexivity.
Qed.
Print Assumptions C96_not_json.
(** abiftool X -t jabmod > Y; abiftool -f jabmod Y -t jabmod prints Y again, character for character. *)
Theorem C96_again : forall s s' rn rn' a a' e, reads_election s a e -> input_format a <> Ok (u "jabmod") -> a_to a = u "jabmod" ->
  reads_text s' a' "jabmod" (saved (o_stdout (main_exact s rn a))) -> a_to a' = u "jabmod" -> ~ In (u "consolidate") (modifiers a') ->
  o_stdout (main_exact s' rn' a') = o_stdout (main_exact s rn a) /\ o_ending (main_exact s' rn' a') = Done.
Proof.
  intros s s' rn rn' a a' e R N Et R' Et' H. 
  assert (G : exists reads j, main_exact s rn a = Outcome reads (dumps_indent 4 j ++ [10%N]) Done /\ readable j).
  { destruct (election_object s a e R N) as (fmt&reads&t&blobs&j&E1&E2&E3&E4&G). pose proof (exact_ok s rn a fmt t blobs reads j Et E1 E2 E3 E4) as M. exists reads. destruct (has "consolidate" (modifiers a)).
    - destruct (consolidated_good j e G (election_storable s a e R)) as (j'&C1&(_&_&C3)). rewrite C1 in M. exists j'. split; [exact M|exact C3].
    - exists j. split; [exact M|apply G]. }
  destruct G as (reads&j&E&(J1&J2)). rewrite E in *. cbn [o_stdout] in *. rewrite saved_json in R'. assert (L : json_loads (dumps_indent 4 j ++ [10%N]) = Ok j) by (apply loads_printed; [exact J1|exact J2|intros c [<-|[]]; reflexivity]).
  destruct (C96_through s' rn' a' _ j R' L Et' H) as (reads'&E'&_). rewrite E'. split; reflexivity.
Qed.
Print Assumptions C96_again.
(** -f jabmod -t jabmod -m consolidate: the votelines are merged; everything else in the file is printed as it was. *)
Theorem C96_jabmod_consolidated : forall s rn a t l vs m, reads_text s a "jabmod" t -> json_loads t = Ok (JObj l) -> dget (u "votelines") l = Some (JArr vs) -> Forall2 plain_line vs (j_votelines m) -> a_to a = u "jabmod" -> In (u "consolidate") (modifiers a) ->
  exists reads vs' l', main_exact s rn a = Outcome reads (dumps_indent 4 (JObj l') ++ [10%N]) Done /\ map fst l' = map fst l /\ (forall k, k <> u "votelines" -> dget k l' = dget k l) /\
    dget (u "votelines") l' = Some (JArr vs') /\ Forall2 merged_line vs' (j_votelines (consolidate m)).
Proof.
  intros s rn a t l vs m R E Ev F Et H. destruct (text_read s a _ t R) as (reads&blobs&Er). destruct (C96_consolidate l vs m Ev F) as (vs'&l'&G1&G2&G3&G4&G5). exists reads, vs', l'. split; [|auto].
  rewrite (exact_ok s rn a (u "jabmod") t blobs reads (JObj l) Et (proj1 R) ltac:(cbn; tauto) Er); [rewrite (has_true _ _ H), G1; reflexivity|]. unfold load_obj. eval_fmt. exact E.
Qed.
Print Assumptions C96_jabmod_consolidated.
(** The whole program: whatever the command line, unless it asks for -t jabmod from a jabmod, it reads the same files and ends with the same status as [abiftool] says; and unless it asks for -t jabmod
    it prints the same. *)
Theorem C96_program : forall s rn help argv, (forall a debug, parse_args argv = inl (a, debug) -> a_to a = u "jabmod" -> input_format a <> Ok (u "jabmod")) ->
  p_reads (abiftool_exact s rn help argv) = p_reads (abiftool s rn help argv) /\ p_status (abiftool_exact s rn help argv) = p_status (abiftool s rn help argv) /\
  ((forall a debug, parse_args argv = inl (a, debug) -> a_to a <> u "jabmod") -> abiftool_exact s rn help argv = abiftool s rn help argv).
Proof.
  intros s rn help argv H. unfold abiftool_exact, abiftool. destruct (parse_args argv) as [[a debug]|[]]; [|auto..]. specialize (H a debug eq_refl). destruct (str_eqb_spec (a_to a) (u "jabmod")) as [Et|Nt].
  - destruct (C96_run s rn a Et (H Et)) as [E|(reads&out&j&E1&E2)]; [rewrite E; auto|]. rewrite E1, E2. cbn [p_reads p_status o_reads o_ending exit_status]. split; [reflexivity|]. split; [reflexivity|]. intro N. destruct (N a debug eq_refl Et).
  - assert (E : main_exact s rn a = main s rn a) by (unfold main_exact; destruct (str_eqb_spec (a_to a) (u "jabmod")); [contradiction|reflexivity]). rewrite E. auto.
Qed.
Print Assumptions C96_program.

(** ** Cases *)
Definition obj_demo : str := unlines [u "{title: demo}"; u "=A:[Ann]"; u "2:A/5,B/2 #yes"; u "3:A>B/1=C"; u "2:B/2,A/5"].
Definition cand_obj (es : list (string * json)) : json := JObj (map (fun kv => (u (fst kv), snd kv)) es).
Definition extra_json : str := u "{""x"": [null, true], ""votelines"": [{""prefs"": {""A"": {""nextdelim"": "">"", ""rank"": 1}}, ""note"": 1, ""qty"": 2}, {""qty"": 3, ""prefs"": {""A"": {""rank"": 1, ""nextdelim"": "">""}}}]}".
Example C96_nonvacuous :
  (* a line with a comma, one without, a comment and none; the line of three voters comes first *)
  convert_abif_obj obj_demo false false false = Ok (JObj [
    (u "candidates", cand_obj [("A", JStr (u "Ann")); ("B", JStr (u "B")); ("C", JStr (u "C"))]%string);
    (u "metadata", cand_obj [("ballotcount", JInt 7); ("title", JStr (u "demo"))]%string);
    (u "votelines", JArr [
      cand_obj [("qty", JInt 3); ("comment", JNull); ("prefs", cand_obj [("A", cand_obj [("rank", JInt 1); ("nextdelim", JStr (u ">"))]); ("B", cand_obj [("rating", JInt 1); ("rank", JInt 2); ("nextdelim", JStr (u "="))]); ("C", cand_obj [("rank", JInt 2)])]); ("prefstr", JStr (u "A>B/1=C"))]%string;
      cand_obj [("qty", JInt 2); ("comment", JStr (u "#yes")); ("prefs", cand_obj [("A", cand_obj [("rating", JInt 5); ("nextdelim", JStr (u ",")); ("rank", JInt 1)]); ("B", cand_obj [("rating", JInt 2); ("rank", JInt 2)])]); ("prefstr", JStr (u "A/5,B/2"))]%string;
      cand_obj [("qty", JInt 2); ("comment", JNull); ("prefs", cand_obj [("B", cand_obj [("rating", JInt 2); ("nextdelim", JStr (u ",")); ("rank", JInt 2)]); ("A", cand_obj [("rating", JInt 5); ("rank", JInt 1)])]); ("prefstr", JStr (u "B/2,A/5"))]%string])]) /\
  (* --add-scores: the made-up rating comes last *)
  (exists l, convert_abif_obj (unlines [u "1:A>B"]) false true false = Ok (JObj l) /\
    dget (u "votelines") l = Some (JArr [cand_obj [("qty", JInt 1); ("comment", JNull); ("prefs", cand_obj [("A", cand_obj [("rank", JInt 1); ("nextdelim", JStr (u ">")); ("rating", JInt 1)]); ("B", cand_obj [("rank", JInt 2); ("rating", JInt 0)])]); ("prefstr", JStr (u "A>B"))]%string])) /\
  (* the three orders make one line *)
  (exists j, json_loads extra_json = Ok j /\ consolidate_obj j = Ok (JObj [(u "x", JArr [JNull; JBool true]);
    (u "votelines", JArr [cand_obj [("prefs", cand_obj [("A", cand_obj [("nextdelim", JStr (u ">")); ("rank", JInt 1)])]); ("qty", JInt 5)]%string])])) /\
  (* runs *)
  (forall to mods, exists e, reads_election (fmt_home [(u "x", obj_demo)]) (fmt_run_args "abif" to [u "x"] mods) e /\ length (sf_votelines e) = 3%nat) /\
  (let s' := fmt_home [(u "x", saved (o_stdout (main_exact (fmt_home [(u "x", obj_demo)]) framed (fmt_run_args "abif" "jabmod" [u "x"] []))))] in
   reads_text s' (fmt_run_args "jabmod" "jabmod" [u "x"] []) "jabmod" (saved (o_stdout (main_exact (fmt_home [(u "x", obj_demo)]) framed (fmt_run_args "abif" "jabmod" [u "x"] []))))).
Proof.
  split; [vm_compute; reflexivity|]. split; [eexists; split; [vm_compute; reflexivity|reflexivity]|]. split; [eexists; split; [vm_compute; reflexivity|vm_compute; reflexivity]|]. split.
  - intros to mods. destruct (convert_abif_to_jabmod obj_demo false false (has "jcomments" (modifiers (fmt_run_args "abif" to [u "x"] mods)))) as [m|x] eqn:E.
    + exists (all_with_names m). split; [left; exists obj_demo, m; split; [apply fmt_home_reads|]; split; [vm_compute; reflexivity|]; split; [exact E|reflexivity]|]. cbn [all_with_names sf_votelines]. destruct (has _ _); vm_compute in E; apply ok_inj in E; subst m; reflexivity.
    + destruct (has _ _); vm_compute in E; discriminate E.
  - cbv zeta. apply fmt_home_reads.
Qed.
