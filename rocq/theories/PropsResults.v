(** * PropsResults: C73, the JSON form of the IRV, score and STAR results *)

From Coq Require Import Lia Permutation.
From Verif Require Import PyBase PyFacts Jabmod PairwiseModel Spec PairwiseFacts PropsPairwise ScoreModel ScoreFacts PropsScore IrvModel IrvFacts IrvStrict IrvTrace IrvCriteria PropsIrv.
From Verif Require Import UrlText JsonText JsonFacts JsonParse JsonParseFacts JabmodJson PropsJson ResultsJson.
Local Open Scope Z_scope.

(** ** Specification *)
(** A JSON array of exactly these strings. *)
Definition strings (l : list str) : json := JArr (map JStr l).
(** An array with the strings of l in some order. *)
Definition set_of (l : list str) (j : json) : Prop := exists l', Permutation l' l /\ j = strings l'.
(** The member k of j. *)
Definition member_is (k : string) (j v : json) : Prop := jmember (u k) j = Some v.
Definition no_member (k : string) (j : json) : Prop := jmember (u k) j = None.

(** ** Facts *)
Lemma jstrs_text l : (forall x, In x l -> text x) -> json_text_ok (jstrs l) = true.
Proof. intro H. unfold jstrs. cbn [json_text_ok]. apply forallb_forall. intros j Hj. apply in_map_iff in Hj as (x&<-&Hx). apply H, Hx. Qed.
Lemma jstrs_nodup l : nodup_keys (jstrs l).
Proof. unfold jstrs. apply nodup_arr_intro. intros j Hj. apply in_map_iff in Hj as (x&<-&Hx). exact I. Qed.

(** Every name in the report of a count is a candidate of the election. *)
Definition meta_names (P : str -> Prop) (rm : irvmeta) : Prop :=
  (forall x, In x (im_starting_cands rm) -> P x) /\ (forall l x, im_bottomtie rm = Some l -> In x l -> P x) /\
  (forall x, In x (im_eliminated rm) -> P x) /\ (forall x, In x (im_all_eliminated rm) -> P x) /\ (forall l x, im_winner rm = Some l -> In x l -> P x).
Lemma trace_names (P : str -> Prop) o n pa cs ls w rs ms : valid_oracle o -> trace o n pa cs ls w rs ms ->
  (forall c, In c cs -> P c) -> (forall s x, pa = Some s -> In x s -> P x) ->
  (forall rc, In rc rs -> forall c, In c (dkeys rc) -> P c) /\ (forall rc, In rc rs -> NoDup (dkeys rc)) /\ (forall rm, In rm ms -> meta_names P rm).
Proof.
  intros Ho T. induction T as [n pa cs ls mn mx pen Hn Hne Hl R Hd|n pa cs ls mn mx pen e w rs ms Hn Hne Hl R Hd He T IH]; intros Hc Hp.
  - destruct (elim_facts o n cs ls mn mx pen _ Hn R eq_refl) as (_&_&Hi&_).
    destruct (elim_spec o n cs ls mn mx pen _ (rn_min _ _ _ _ _ R) eq_refl) as (_&_&Hs). cbv zeta in Hs.
    split; [|split].
    + intros rc [<-|[]] c H. rewrite dkeys_dmap in H. apply Hc, H.
    + intros rc [<-|[]]. rewrite dkeys_dmap. exact Hn.
    + intros rm [<-|[]]. unfold meta_names, mk_meta. cbn [im_starting_cands im_bottomtie im_eliminated im_all_eliminated im_winner]. split; [exact Hc|]. split; [|split; [|split]].
      * intros l x H Hx. apply Hc. destruct Hs as [(_&E)|[(_&_&E)|(_&_&y&_&E)]]; rewrite E in H; cbn [ed_bottomtie] in H; try discriminate H; injection H as <-; apply filter_In in Hx as (Hx&_); exact Hx.
      * intros x H. apply set_minus_In in H as (H&_). apply Hc, H.
      * intros x H. apply (all_elim_In o n cs ls mn mx pen pa x (rn_min _ _ _ _ _ R)) in H as [(s&Es&H)|(H&_)]; [apply (Hp s x Es H)|apply Hc, Hi, H].
      * intros l x H Hx. injection H as <-. apply filter_In in Hx as (Hx&_). apply Hc, Hx.
  - destruct (elim_facts o n cs ls mn mx pen _ Hn R eq_refl) as (_&_&Hi&_).
    destruct (elim_spec o n cs ls mn mx pen _ (rn_min _ _ _ _ _ R) eq_refl) as (_&_&Hs). cbv zeta in Hs.
    assert (HA : forall x, In x (all_elim pa (elim_decision o n (ri_of cs ls mn mx pen))) -> P x).
    { intros x H. apply (all_elim_In o n cs ls mn mx pen pa x (rn_min _ _ _ _ _ R)) in H as [(s&Es&H)|(H&_)]; [apply (Hp s x Es H)|apply Hc, Hi, H]. }
    destruct IH as (I1&I2&I3).
    { intros c H. apply (Permutation_in _ (Ho _ _)), set_minus_In in H as (H&_). apply Hc, H. }
    { intros s x E H. injection E as <-. apply HA, H. }
    split; [|split].
    + intros rc [<-|H]; [|apply I1, H]. intros c Hcc. rewrite dkeys_dmap in Hcc. apply Hc, Hcc.
    + intros rc [<-|H]; [|apply I2, H]. rewrite dkeys_dmap. exact Hn.
    + intros rm [<-|H]; [|apply I3, H]. unfold meta_names, mk_meta. cbn [im_starting_cands im_bottomtie im_eliminated im_all_eliminated im_winner]. split; [exact Hc|]. split; [|split; [|split]].
      * intros l x H Hx. apply Hc. destruct Hs as [(_&E)|[(_&_&E)|(_&_&y&_&E)]]; rewrite E in H; cbn [ed_bottomtie] in H; try discriminate H; injection H as <-; apply filter_In in Hx as (Hx&_); exact Hx.
      * intros x H. subst e. apply Hc, Hi, H.
      * exact HA.
      * intros l x H. discriminate H.
Qed.

Lemma map_snd_key {V} (f : V -> json) (d : dict V) : map fst (map (fun kv => (fst kv, f (snd kv))) d) = dkeys d.
Proof. rewrite map_map. reflexivity. Qed.
Lemma obj_text {V} (f : V -> json) (d : dict V) : (forall k, In k (dkeys d) -> text k) -> (forall k v, In (k, v) d -> json_text_ok (f v) = true) -> json_text_ok (JObj (map (fun kv => (fst kv, f (snd kv))) d)) = true.
Proof.
  intros H1 H2. apply text_obj_intro. intros k x Hx. apply in_map_iff in Hx as ([k' v]&E&Hi). injection E as <- <-. split; [apply H1; apply in_map_iff; exists (k', v); split; [reflexivity|exact Hi]|apply (H2 k' v Hi)].
Qed.
Lemma obj_nodup {V} (f : V -> json) (d : dict V) : NoDup (dkeys d) -> (forall k v, In (k, v) d -> nodup_keys (f v)) -> nodup_keys (JObj (map (fun kv => (fst kv, f (snd kv))) d)).
Proof.
  intros H1 H2. apply nodup_obj_intro; [rewrite map_snd_key; exact H1|]. intros k x Hx. apply in_map_iff in Hx as ([k' v]&E&Hi). injection E as <- <-. apply (H2 k' v Hi).
Qed.
Fixpoint nodups (l : list str) : bool := match l with [] => true | x :: r => negb (memb x r) && nodups r end.
Lemma nodups_ok l : nodups l = true -> NoDup l.
Proof. induction l as [|x r IH]; intro H; [constructor|]. cbn [nodups] in H. apply andb_prop in H as (H1&H2). constructor; [|apply IH, H2]. apply memb_nIn. destruct (memb x r); [discriminate|reflexivity]. Qed.

Lemma meta_ok so rm : (forall l, Permutation (so l) l) -> meta_names text rm -> json_text_ok (json_of_irvmeta so rm) = true /\ nodup_keys (json_of_irvmeta so rm).
Proof.
  intros Hso (N1&N2&N3&N4&N5).
  assert (S1 : json_text_ok (jstrs (im_starting_cands rm)) = true) by (apply jstrs_text, N1).
  assert (S2 : json_text_ok (jstrs (so (im_all_eliminated rm))) = true) by (apply jstrs_text; intros x H; apply N4, (Permutation_in _ (Hso _)), H).
  assert (S3 : json_text_ok (jstrs (match im_winner rm with Some _ => so (im_eliminated rm) | None => im_eliminated rm end)) = true).
  { apply jstrs_text. intros x H. apply N3. destruct (im_winner rm); [apply (Permutation_in _ (Hso _)), H|exact H]. }
  pose proof (fun l => jstrs_nodup l) as J. unfold json_of_irvmeta. split.
  - destruct (im_bottomtie rm) as [bt|] eqn:Eb; [pose proof (jstrs_text bt (fun x => N2 bt x eq_refl)) as S4|]; destruct (im_batch_elim rm), (im_random_elim rm), (im_winner rm) as [w|] eqn:Ew; try (pose proof (jstrs_text w (fun x => N5 w x eq_refl)) as S5);
      cbn [app opt_entry json_text_ok forallb fst snd]; repeat (rewrite ?S1, ?S2, ?S3; try rewrite S4; try rewrite S5); reflexivity.
  - apply nodup_obj_intro.
    + apply nodups_ok. destruct (im_bottomtie rm), (im_batch_elim rm), (im_random_elim rm), (im_winner rm); vm_compute; reflexivity.
    + intros k x H. repeat (apply in_app_or in H as [H|H]); [| | | | |];
        repeat match goal with
        | H : In _ (match ?o with _ => _ end) |- _ => destruct o
        | H : In _ (opt_entry _ _ ?o) |- _ => destruct o; cbn [opt_entry] in H
        | H : In _ (_ :: _) |- _ => destruct H as [H|H]; [injection H as _ <-; try exact I; apply J|]
        | H : In _ [] |- _ => destruct H
        end.
Qed.

(** ** IRV *)
(** What the entry of a round in 'roundmeta' says. *)
Definition meta_entry (rm : irvmeta) (jm : json) : Prop :=
  member_is "roundnum" jm (JInt (Z.of_nat (im_roundnum rm))) /\ member_is "startingqty" jm (JInt (im_startingqty rm)) /\
  member_is "exhaustedqty" jm (JInt (im_exhaustedqty rm)) /\ member_is "overvoteqty" jm (JInt (im_overvoteqty rm)) /\
  member_is "ballotcount" jm (JInt (im_ballotcount rm)) /\ member_is "countedqty" jm (JInt (im_countedqty rm)) /\
  member_is "bottom_votes_percand" jm (JInt (im_bottom_votes_percand rm)) /\ member_is "leading_votes_percand" jm (JInt (im_leading_votes_percand rm)) /\
  member_is "penultimate_votes_percand" jm (JInt (im_penultimate_votes_percand rm)) /\ member_is "starting_cands" jm (strings (im_starting_cands rm)) /\
  member_is "top_voteqty" jm (JInt (im_top_voteqty rm)) /\ member_is "bottom_voteqty" jm (JInt (im_bottom_voteqty rm)) /\
  (exists e, member_is "eliminated" jm e /\ set_of (im_eliminated rm) e) /\ (exists e, member_is "all_eliminated" jm e /\ set_of (im_all_eliminated rm) e) /\
  match im_bottomtie rm with Some l => member_is "bottomtie" jm (strings l) /\ member_is "tiecandlist" jm (strings l) | None => no_member "bottomtie" jm /\ no_member "tiecandlist" jm end /\
  (if im_batch_elim rm then member_is "batch_elim" jm (JBool true) else no_member "batch_elim" jm) /\
  (if im_random_elim rm then member_is "random_elim" jm (JBool true) else no_member "random_elim" jm) /\
  match im_winner rm with Some l => member_is "winner" jm (strings l) | None => no_member "winner" jm end.
Lemma meta_entry_ok so rm : (forall l, Permutation (so l) l) -> meta_entry rm (json_of_irvmeta so rm).
Proof.
  intro Hso. unfold meta_entry, member_is, no_member, json_of_irvmeta, jmember, set_of.
  destruct (im_bottomtie rm) as [bt|], (im_batch_elim rm), (im_random_elim rm), (im_winner rm) as [w|]; cbn [app opt_entry];
    repeat match goal with |- _ /\ _ => split end; try reflexivity; eexists; (split; [reflexivity|]); eexists; (split; [|reflexivity]); try apply Hso; apply Permutation_refl.
Qed.

Lemma irv_json_ok o so m d : schedule o -> (forall l, Permutation (so l) l) -> irv_election m -> (forall c n, In (c, n) (j_candidates m) -> text c /\ text n) -> IRV_dict_from_jabmod o m = Ok d ->
  json_text_ok (json_of_irv so d) = true /\ nodup_keys (json_of_irv so d).
Proof.
  intros Ho Hso Hm Ht E. destruct (irv_run o m Ho Hm) as (d'&E'&T&Ec). rewrite E in E'. apply ok_inj in E'. subst d'.
  assert (Hc : forall c, In c (cands m) -> text c). { intros c H. apply in_map_iff in H as ([c' n]&<-&H). apply (Ht c' n H). }
  destruct (trace_names text _ _ _ _ _ _ _ _ Ho T Hc) as (N1&N2&N3); [intros s x H; discriminate H|].
  destruct (trace_lengths _ _ _ _ _ _ _ _ T) as (L&_). destruct (trace_winner _ _ _ _ _ _ _ _ Ho T) as (_&_&W).
  assert (Hw : text (ir_winnerstr d)).
  { destruct (C27_winnerstr_exact o m d Ho Hm E) as (toks&names&_&_&F&->). assert (G : forall n, In n names -> text n).
    { intros n Hn. clear - F Hn Ht. induction F as [|t n' ts ns H _ IH]; [destruct Hn|]. destruct Hn as [<-|Hn]; [|apply IH, Hn]. apply dget_In in H. apply (Ht t n' H). }
    clear - G. unfold text. induction names as [|x r IH]; [reflexivity|]. destruct r as [|y r]; [cbn [join]; apply G; left; reflexivity|].
    change (join (u " and ") (x :: y :: r)) with (x ++ u " and " ++ join (u " and ") (y :: r)). rewrite !forallb_app. rewrite IH by (intros n Hn; apply G; right; exact Hn). rewrite (G x) by (left; reflexivity). reflexivity. }
  set (jn := map (fun kv : str * str => (fst kv, JStr (snd kv))) (ir_canddict d)). set (jr := map (fun rc : dict Z => JObj (map (fun kv => (fst kv, JInt (snd kv))) rc)) (ir_rounds d)).
  set (jm := map (json_of_irvmeta so) (ir_roundmeta d)).
  assert (A1 : json_text_ok (JObj jn) = true /\ nodup_keys (JObj jn)).
    { unfold jn. rewrite Ec. split; [apply (obj_text JStr); [exact Hc|intros k v H; apply (Ht k v H)]|apply (obj_nodup JStr); [apply Hm|intros; exact I]]. }
    assert (A2 : json_text_ok (JArr jr) = true /\ nodup_keys (JArr jr)).
    { split.
      - cbn [json_text_ok]. apply forallb_forall. intros x Hx. apply in_map_iff in Hx as (rc&<-&Hx). apply (obj_text JInt); [apply N1, Hx|reflexivity].
      - apply nodup_arr_intro. intros x Hx. apply in_map_iff in Hx as (rc&<-&Hx). apply (obj_nodup JInt); [apply N2, Hx|intros; exact I]. }
    assert (A3 : json_text_ok (JArr jm) = true /\ nodup_keys (JArr jm)).
    { split.
      - cbn [json_text_ok]. apply forallb_forall. intros x Hx. apply in_map_iff in Hx as (rm&<-&Hx). apply (meta_ok so rm Hso (N3 rm Hx)).
      - apply nodup_arr_intro. intros x Hx. apply in_map_iff in Hx as (rm&<-&Hx). apply (meta_ok so rm Hso (N3 rm Hx)). }
    assert (A4 : json_text_ok (jstrs (ir_winner d)) = true) by (apply jstrs_text; intros x Hx; apply Hc, W, Hx).
    unfold json_of_irv; fold jn jr jm. split.
    - apply text_obj_intro. intros k x Hx. cbn [In] in Hx. destruct Hx as [H|[H|[H|[H|[H|[H|[]]]]]]]; injection H as <- <-; (split; [reflexivity|]); try tauto.
    - apply nodup_obj_intro; [apply nodups_ok; reflexivity|]. intros k x Hx. cbn [In] in Hx. destruct Hx as [H|[H|[H|[H|[H|[H|[]]]]]]]; injection H as <- <-; try tauto; try exact I. apply jstrs_nodup.
Qed.
(** The JSON of an IRV count is read back as an object with the names, the winners, and per round the votes of each candidate
    and the entries of the round.  [so] is the order in which Python happens to walk sets. *)
Theorem C73_irv_json : forall o so m d, schedule o -> (forall l, Permutation (so l) l) -> irv_election m ->
  (forall c n, In (c, n) (j_candidates m) -> text c /\ text n) -> IRV_dict_from_jabmod o m = Ok d ->
  exists j names rounds metas, json_loads (dumps_indent 4 (json_of_irv so d)) = Ok j /\
    member_is "canddict" j (JObj names) /\ map fst names = cands m /\ (forall c n, dget c (j_candidates m) = Some n -> dget c names = Some (JStr n)) /\
    member_is "winner" j (strings (ir_winner d)) /\ member_is "winnerstr" j (JStr (ir_winnerstr d)) /\ member_is "has_tie" j (JBool (ir_has_tie d)) /\
    member_is "rounds" j (JArr rounds) /\ member_is "roundmeta" j (JArr metas) /\ length rounds = length (ir_rounds d) /\ length metas = length (ir_rounds d) /\
    forall i rc rm, round d i rc rm -> exists votes jm, nth_error rounds i = Some (JObj votes) /\ nth_error metas i = Some jm /\
      map fst votes = im_starting_cands rm /\ (forall c v, dget c rc = Some v -> dget c votes = Some (JInt v)) /\ meta_entry rm jm.
Proof.
  intros o so m d Ho Hso Hm Ht E. destruct (irv_json_ok o so m d Ho Hso Hm Ht E) as (J1&J2). destruct (irv_run o m Ho Hm) as (d'&E'&T&Ec). rewrite E in E'. apply ok_inj in E'. subst d'.
  destruct (trace_lengths _ _ _ _ _ _ _ _ T) as (L&_).
  set (jn := map (fun kv : str * str => (fst kv, JStr (snd kv))) (ir_canddict d)). set (jr := map (fun rc : dict Z => JObj (map (fun kv => (fst kv, JInt (snd kv))) rc)) (ir_rounds d)).
  set (jm := map (json_of_irvmeta so) (ir_roundmeta d)).
  exists (json_of_irv so d), jn, jr, jm. split; [exact (loads_dumps (Some 4%nat) _ J1 J2)|].
  split; [reflexivity|]. split; [unfold jn; rewrite (map_snd_key JStr), Ec; reflexivity|]. split; [intros c n H; unfold jn; rewrite Ec, (dget_map_json JStr), H; reflexivity|].
  split; [reflexivity|]. split; [reflexivity|]. split; [reflexivity|]. split; [reflexivity|]. split; [reflexivity|]. split; [apply map_length|]. split; [unfold jm; rewrite map_length; exact L|].
  intros i rc rm Hr. destruct Hr as (R1&R2). exists (map (fun kv : str * Z => (fst kv, JInt (snd kv))) rc), (json_of_irvmeta so rm).
  split; [unfold jr; rewrite nth_error_map, R1; reflexivity|]. split; [unfold jm; rewrite nth_error_map, R2; reflexivity|].
  destruct (C18_irv_candidate_bookkeeping o m d i rc rm Ho Hm E (conj R1 R2)) as (_&B&_).
  split; [rewrite (map_snd_key JInt); exact B|]. split; [intros c v H; rewrite (dget_map_json JInt), H; reflexivity|apply meta_entry_ok, Hso].
Qed.
Print Assumptions C73_irv_json.

(** Without equal ranks, the votes read from the file are the ballots on which each remaining candidate is first. *)
Theorem C73_irv_json_figures : forall o so m d, schedule o -> (forall l, Permutation (so l) l) -> irv_election m -> strict_election m ->
  (forall c n, In (c, n) (j_candidates m) -> text c /\ text n) -> IRV_dict_from_jabmod o m = Ok d ->
  exists j rounds metas, json_loads (dumps_indent 4 (json_of_irv so d)) = Ok j /\ member_is "rounds" j (JArr rounds) /\ member_is "roundmeta" j (JArr metas) /\
    length rounds = length metas /\
    forall i votes jm, nth_error rounds i = Some votes -> nth_error metas i = Some jm -> exists remaining,
      member_is "starting_cands" jm (strings remaining) /\
      (forall c, In c remaining -> jmember c votes = Some (JInt (ballots_where (fun l => top_choice remaining l c) (j_votelines m)))) /\
      member_is "exhaustedqty" jm (JInt (ballots_where (lists_nobody remaining) (j_votelines m))) /\ member_is "overvoteqty" jm (JInt 0).
Proof.
  intros o so m d Ho Hso Hm Hs Ht E. destruct (C73_irv_json o so m d Ho Hso Hm Ht E) as (j&names&rounds&metas&L&_&_&_&_&_&_&Hr&Hm'&L1&L2&H).
  exists j, rounds, metas. split; [exact L|]. split; [exact Hr|]. split; [exact Hm'|]. split; [congruence|]. intros i votes jm E1 E2.
  assert (exists rc, nth_error (ir_rounds d) i = Some rc) as (rc&R1). { destruct (nth_error (ir_rounds d) i) eqn:X; [eauto|]. apply nth_error_None in X. apply nth_lt in E1. lia. }
  assert (exists rm, nth_error (ir_roundmeta d) i = Some rm) as (rm&R2).
  { destruct (irv_run o m Ho Hm) as (d'&E'&T&_). rewrite E in E'. apply ok_inj in E'. subst d'. destruct (trace_lengths _ _ _ _ _ _ _ _ T) as (L3&_).
    destruct (nth_error (ir_roundmeta d) i) eqn:X; [eauto|]. apply nth_error_None in X. apply nth_lt in E1. lia. }
  destruct (H i rc rm (conj R1 R2)) as (vs&jm'&E3&E4&_&Hv&He). rewrite E1 in E3. injection E3 as ->. rewrite E2 in E4. injection E4 as <-.
  destruct (C22_irv_tallies_are_top_choices o m d i rc rm Ho Hm Hs E (conj R1 R2)) as (T1&T2&T3). exists (im_starting_cands rm).
  destruct He as (_&_&He&Ho'&_&_&_&_&_&Hsc&_). split; [exact Hsc|]. split; [intros c Hc; cbn [jmember]; apply Hv, T1, Hc|]. rewrite <- T2. split; [exact He|]. rewrite <- T3. exact Ho'.
Qed.
Print Assumptions C73_irv_json_figures.

(** ** Score and STAR *)
Definition score_members (m : jabmod) (bc : Z) (order : list str) (j : json) : Prop :=
  (Permutation order (cands m) /\ StronglySorted (fun x y => total_score m y <= total_score m x) order /\
   (forall z, filter (fun c => total_score m c =? z) order = filter (fun c => total_score m c =? z) (cands m))) /\
  member_is "ranklist" j (strings order) /\ member_is "total_all_scores" j (JInt (zsum (map (total_score m) (cands m)))) /\ member_is "totalvoters" j (JInt bc) /\
  exists scores, member_is "scores" j (JObj scores) /\ map fst scores = cands m /\
    forall c name, dget c (j_candidates m) = Some name -> exists e, dget c scores = Some e /\
      member_is "candname" e (JStr name) /\ member_is "score" e (JInt (total_score m c)) /\ member_is "votercount" e (JInt (supporters m c)) /\
      member_is "rank" e (JInt (dense_rank (total_score m c) (map (total_score m) (cands m)))).
Lemma score_part m bc sr : scorable m -> (forall c n, In (c, n) (j_candidates m) -> text c /\ text n) -> dget k_ballotcount (j_metadata m) = Some (JInt bc) -> enhanced_score_result m = Ok sr ->
  (forall k x, In (k, x) (score_entries sr) -> text k /\ json_text_ok x = true /\ nodup_keys x) /\
  (forall more, score_members m bc (sr_ranklist sr) (JObj (score_entries sr ++ more))) /\ (forall x, In x (sr_ranklist sr) -> In x (cands m)).
Proof.
  intros Hs Ht Hb E. destruct (C11_ranklist m sr Hs E) as (R1&R2&R3&R4). rewrite (enhanced_ok m (JInt bc) Hs Hb) in E. apply ok_inj in E. subst sr. unfold score_entries. cbn [sr_scores sr_ranklist sr_total_all_scores sr_totalvoters].
  assert (Hc : forall c, In c (cands m) -> text c). { intros c H. apply in_map_iff in H as ([c' n]&<-&H). apply (Ht c' n H). }
  assert (Hn : forall c, In c (cands m) -> text (cand_name m c)).
  { intros c H. apply dget_Some_In in H as (n&H). unfold cand_name. rewrite H. apply dget_In in H. apply (Ht c n H). }
  assert (P : Permutation (score_order m) (cands m)) by apply sort_desc_perm.
  assert (Ho : forall x, In x (score_order m) -> In x (cands m)) by (intros x; apply Permutation_in, P).
  assert (In_dmap : forall c si, In (c, si) (dmap (cands m) (final_info m)) -> In c (cands m) /\ si = final_info m c).
  { intros c si H. unfold dmap in H. apply in_map_iff in H as (x&H&Hx). injection H as <- <-. split; [exact Hx|reflexivity]. }
  split; [|split; [|exact Ho]].
  - intros k x H. cbn [In] in H. destruct H as [H|[H|[H|[H|[]]]]]; injection H as <- <-; (split; [reflexivity|]).
    + split.
      * apply (obj_text json_of_scoreinfo); [rewrite dkeys_dmap; exact Hc|]. intros k v H. apply In_dmap in H as (H&->). unfold json_of_scoreinfo, final_info. cbn [si_candname si_score si_votercount si_rank opt_entry app json_text_ok forallb fst snd]. change (forallb scalar (cand_name m k) = true) with (text (cand_name m k)). pose proof (Hn k H) as X. unfold text in X. rewrite X. reflexivity.
      * apply (obj_nodup json_of_scoreinfo); [rewrite dkeys_dmap; apply Hs|]. intros k v _. unfold json_of_scoreinfo. destruct (si_rank v); (apply nodup_obj_intro; [apply nodups_ok; reflexivity|]); cbn [opt_entry app In]; intros k' x H; repeat (destruct H as [H|H]; [injection H as <- <-; exact I|]); destruct H.
    + split; [apply jstrs_text; intros x Hx; apply Hc, Ho, Hx|apply jstrs_nodup].
    + split; [reflexivity|exact I].
    + split; [reflexivity|exact I].
  - intro more. split; [auto|]. split; [reflexivity|]. split; [reflexivity|]. split; [reflexivity|].
    eexists. split; [reflexivity|]. split; [rewrite (map_snd_key json_of_scoreinfo); apply dkeys_dmap|]. intros c name Hd. assert (Hc' : In c (cands m)) by (apply dget_Some_In; eauto).
    eexists. split; [rewrite (dget_map_json json_of_scoreinfo), dget_dmap, (proj2 (memb_In _ _) Hc'); reflexivity|]. split; [|split; [reflexivity|split; [reflexivity|]]].
    + unfold final_info, json_of_scoreinfo, cand_name. cbn [si_candname]. rewrite Hd. reflexivity.
    + destruct (R4 c Hc') as (si&Esi&Er). cbn [sr_scores] in Esi. rewrite dget_dmap, (proj2 (memb_In _ _) Hc') in Esi. apply some_inj in Esi. subst si. unfold json_of_scoreinfo. rewrite Er. reflexivity.
Qed.
(** The JSON of the score result is read back as an object with the candidates by falling score, the sum of all scores, the
    voter count, and for every candidate name, score and number of supporters. *)
Theorem C73_score_json : forall m bc sr, scorable m -> (forall c n, In (c, n) (j_candidates m) -> text c /\ text n) ->
  dget k_ballotcount (j_metadata m) = Some (JInt bc) -> enhanced_score_result m = Ok sr ->
  exists j, json_loads (dumps_indent 4 (json_of_score sr)) = Ok j /\ score_members m bc (sr_ranklist sr) j.
Proof.
  intros m bc sr Hs Ht Hb E. destruct (score_part m bc sr Hs Ht Hb E) as (P1&P2&_). exists (json_of_score sr). split.
  - apply loads_dumps; [apply text_obj_intro; intros k x H; destruct (P1 k x H) as (H1&H2&_); auto|]. apply nodup_obj_intro; [apply nodups_ok; reflexivity|]. intros k x H. apply (P1 k x H).
  - unfold json_of_score. specialize (P2 []). rewrite app_nil_r in P2. exact P2.
Qed.
Print Assumptions C73_score_json.

Lemma star_json_ok m bc st : scorable m -> tallyable m -> (forall c n, In (c, n) (j_candidates m) -> text c /\ text n) -> dget k_ballotcount (j_metadata m) = Some (JInt bc) -> STAR_result m = Ok st ->
  json_text_ok (json_of_star st) = true /\ nodup_keys (json_of_star st).
Proof.
  intros Hs Ht Htx Hb E. destruct (C12_star_runoff m bc st Hs Ht Hb E) as (f1&f2&n1&n2&Hf&Ee&Hn1&Hn2&W&F1&F2&N1&N2&V1&V2&_).
  destruct (score_part m bc (st_base st) Hs Htx Hb Ee) as (P1&P2&P3).
  assert (Hr : exists rest, sr_ranklist (st_base st) = f1 :: f2 :: rest).
  { destruct (sr_ranklist (st_base st)) as [|x [|y r]]; cbn [firstn] in Hf; try discriminate Hf. injection Hf as -> ->. eauto. }
  destruct Hr as (rest&Hr). rewrite Hr in P2, P3.
  assert (Ew : st_winner st = (if votes_over m f2 f1 <? votes_over m f1 f2 then n1 else if votes_over m f1 f2 <? votes_over m f2 f1 then n2 else u "tie " ++ n1 ++ u " and " ++ n2)).
  { destruct (C12_star_runoff m bc st Hs Ht Hb E) as (g1&g2&k1&k2&Hg&_&Hk1&Hk2&_&_&_&_&_&_&_&X1&X2&X3). rewrite Hf in Hg. injection Hg as <- <-. assert (k1 = n1) by congruence. assert (k2 = n2) by congruence. subst k1 k2.
    destruct (Z.ltb_spec (votes_over m f2 f1) (votes_over m f1 f2)); [apply X1; lia|]. destruct (Z.ltb_spec (votes_over m f1 f2) (votes_over m f2 f1)); [apply X2; lia|apply X3; lia]. }
  assert (Ea : st_final_abstentions st = bc - votes_over m f1 f2 - votes_over m f2 f1).
  { rewrite <- V1, <- V2. clear -E Hs Hb. unfold STAR_result in E. rewrite (enhanced_ok m _ Hs Hb) in E. cbn [bind] in E.
    apply bind_ok in E as [cc [_ E]]. cbn [sr_ranklist sr_totalvoters sr_scores] in E.
    repeat (apply bind_ok in E as [? [? E]]).
    match goal with H : json_intE _ = _ |- _ => cbn in H; apply ok_inj in H; subst end.
    apply ok_inj in E. subst st. reflexivity. }
  assert (Tx : forall f n, dget f (j_candidates m) = Some n -> text f /\ text n) by (intros f n H; apply dget_In in H; apply (Htx f n H)).
  destruct (Tx f1 n1 Hn1) as (Tf1&Tn1). destruct (Tx f2 n2 Hn2) as (Tf2&Tn2).
  split.
  - apply text_obj_intro. intros k x H. apply in_app_or in H as [H|H]; [destruct (P1 k x H) as (H1&H2&_); auto|]. rewrite W, F1, F2, N1, N2, Ew in H.
      cbn [In] in H. repeat (destruct H as [H|H]; [injection H as <- <-; (split; [reflexivity|]); try reflexivity; try assumption|]); [| |destruct H].
      * apply jstrs_text. intros x [<-|[<-|[]]]; assumption.
      * cbn [json_text_ok]. destruct (_ <? _); [exact Tn1|]. destruct (_ <? _); [exact Tn2|]. change (forallb scalar (u "tie " ++ n1 ++ u " and " ++ n2) = true). rewrite !forallb_app. unfold text in Tn1, Tn2. rewrite Tn1, Tn2. reflexivity.
  - apply nodup_obj_intro; [apply nodups_ok; reflexivity|]. intros k x H. apply in_app_or in H as [H|H]; [apply (P1 k x H)|].
      cbn [In] in H. repeat (destruct H as [H|H]; [injection H as <- <-; try exact I|]); [|destruct H]. apply jstrs_nodup.
Qed.
(** The same for STAR, with the two finalists, the ballots that prefer each, the abstentions and the winner. *)
Theorem C73_star_json : forall m bc st, scorable m -> tallyable m -> (forall c n, In (c, n) (j_candidates m) -> text c /\ text n) ->
  dget k_ballotcount (j_metadata m) = Some (JInt bc) -> STAR_result m = Ok st ->
  exists j f1 f2 n1 n2 rest, json_loads (dumps_indent 4 (json_of_star st)) = Ok j /\ score_members m bc (f1 :: f2 :: rest) j /\
    dget f1 (j_candidates m) = Some n1 /\ dget f2 (j_candidates m) = Some n2 /\
    member_is "round1winners" j (strings [f1; f2]) /\ member_is "fin1" j (JStr f1) /\ member_is "fin2" j (JStr f2) /\ member_is "fin1n" j (JStr n1) /\ member_is "fin2n" j (JStr n2) /\
    member_is "fin1votes" j (JInt (votes_over m f1 f2)) /\ member_is "fin2votes" j (JInt (votes_over m f2 f1)) /\
    member_is "final_abstentions" j (JInt (bc - votes_over m f1 f2 - votes_over m f2 f1)) /\
    member_is "winner" j (JStr (if votes_over m f2 f1 <? votes_over m f1 f2 then n1 else if votes_over m f1 f2 <? votes_over m f2 f1 then n2 else u "tie " ++ n1 ++ u " and " ++ n2)).
Proof.
  intros m bc st Hs Ht Htx Hb E. destruct (star_json_ok m bc st Hs Ht Htx Hb E) as (J1&J2). destruct (C12_star_runoff m bc st Hs Ht Hb E) as (f1&f2&n1&n2&Hf&Ee&Hn1&Hn2&W&F1&F2&N1&N2&V1&V2&_).
  destruct (score_part m bc (st_base st) Hs Htx Hb Ee) as (P1&P2&P3).
  assert (Hr : exists rest, sr_ranklist (st_base st) = f1 :: f2 :: rest).
  { destruct (sr_ranklist (st_base st)) as [|x [|y r]]; cbn [firstn] in Hf; try discriminate Hf. injection Hf as -> ->. eauto. }
  destruct Hr as (rest&Hr). rewrite Hr in P2, P3.
  assert (Ew : st_winner st = (if votes_over m f2 f1 <? votes_over m f1 f2 then n1 else if votes_over m f1 f2 <? votes_over m f2 f1 then n2 else u "tie " ++ n1 ++ u " and " ++ n2)).
  { destruct (C12_star_runoff m bc st Hs Ht Hb E) as (g1&g2&k1&k2&Hg&_&Hk1&Hk2&_&_&_&_&_&_&_&X1&X2&X3). rewrite Hf in Hg. injection Hg as <- <-. assert (k1 = n1) by congruence. assert (k2 = n2) by congruence. subst k1 k2.
    destruct (Z.ltb_spec (votes_over m f2 f1) (votes_over m f1 f2)); [apply X1; lia|]. destruct (Z.ltb_spec (votes_over m f1 f2) (votes_over m f2 f1)); [apply X2; lia|apply X3; lia]. }
  assert (Ea : st_final_abstentions st = bc - votes_over m f1 f2 - votes_over m f2 f1).
  { rewrite <- V1, <- V2. clear -E Hs Hb. unfold STAR_result in E. rewrite (enhanced_ok m _ Hs Hb) in E. cbn [bind] in E.
    apply bind_ok in E as [cc [_ E]]. cbn [sr_ranklist sr_totalvoters sr_scores] in E.
    repeat (apply bind_ok in E as [? [? E]]).
    match goal with H : json_intE _ = _ |- _ => cbn in H; apply ok_inj in H; subst end.
    apply ok_inj in E. subst st. reflexivity. }
  assert (Tx : forall f n, dget f (j_candidates m) = Some n -> text f /\ text n) by (intros f n H; apply dget_In in H; apply (Htx f n H)).
  destruct (Tx f1 n1 Hn1) as (Tf1&Tn1). destruct (Tx f2 n2 Hn2) as (Tf2&Tn2).
  exists (json_of_star st), f1, f2, n1, n2, rest. split; [exact (loads_dumps (Some 4%nat) _ J1 J2)|].
  split; [apply P2|]. split; [exact Hn1|]. split; [exact Hn2|]. unfold json_of_star, score_entries. rewrite W, F1, F2, N1, N2, V1, V2, Ea, Ew. repeat split.
Qed.
Print Assumptions C73_star_json.
