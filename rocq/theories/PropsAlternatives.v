(** * PropsAlternatives: C94, what the withdrawal of candidates does to the pairwise count, Copeland, score and STAR *)

From Coq Require Import Lia Permutation Sorted.
From Verif Require Import PyBase PyFacts Jabmod PairwiseModel Spec PairwiseFacts PropsPairwise ScoreModel ScoreFacts PropsScore IrvModel IrvFacts IrvStrict IrvCriteria PropsWithdraw.
Local Open Scope Z_scope.

(** ** Ballots without some candidates *)
Definition strike (keep : list str) (l : voteline) : voteline := with_prefs l (filter (fun kv => memb (fst kv) keep) (v_prefs l)).
Lemma dget_strike keep (d : dict pref) c : memb c keep = true -> dget c (filter (fun kv => memb (fst kv) keep) d) = dget c d.
Proof.
  intro Hc. induction d as [|[k v] d IH]; [reflexivity|]. cbn [filter fst]. destruct (memb k keep) eqn:Ek; cbn [dget]; destruct (str_eqb c k) eqn:E; auto.
  apply str_eqb_eq in E. subst k. congruence.
Qed.
Lemma prefers_strike keep l a b : memb a keep = true -> memb b keep = true -> prefers (strike keep l) a b = prefers l a b.
Proof. intros Ha Hb. unfold prefers, rank_on, strike. cbn [v_prefs with_prefs]. rewrite !dget_strike by assumption. reflexivity. Qed.
Lemma rating_strike keep l c : memb c keep = true -> rating_on (strike keep l) c = rating_on l c.
Proof. intro Hc. unfold rating_on, strike. cbn [v_prefs with_prefs]. rewrite dget_strike by exact Hc. reflexivity. Qed.
Lemma only_votes keep m a b : memb a keep = true -> memb b keep = true -> votes_over (only keep m) a b = votes_over m a b.
Proof.
  intros Ha Hb. unfold votes_over, only, ballots_where. cbn [j_votelines]. rewrite map_map. apply zsum_map_ext. intros l _. cbn [v_qty with_prefs].
  change (with_prefs l (filter (fun kv => memb (fst kv) keep) (v_prefs l))) with (strike keep l). rewrite prefers_strike by assumption. reflexivity.
Qed.
Lemma forallb_filter {X} (p q : X -> bool) l : forallb p l = true -> forallb p (filter q l) = true.
Proof. rewrite !forallb_forall. intros H x Hx. apply filter_In in Hx. apply H, Hx. Qed.
Lemma only_tallyable keep m : tallyable m -> tallyable (only keep m).
Proof.
  intros [H1 H2]. split; [rewrite only_cands; apply NoDup_filter, H1|]. intros l Hl. cbn in Hl. apply in_map_iff in Hl as (l0&<-&Hl0). apply forallb_filter, (H2 l0 Hl0).
Qed.

(** ** The pairwise count *)
(** The table of the remaining candidates is the old table without the rows and columns of the others. *)
Theorem C94_pairwise : forall m keep, tallyable m -> tallyable (only keep m) /\
  pairwise_count_dict (only keep m) = Ok (matrix (filter (fun c => memb c keep) (cands m)) (fun a b => if str_eqb a b then None else Some (votes_over m a b))).
Proof.
  intros m keep H. pose proof (only_tallyable keep m H) as H'. split; [exact H'|]. rewrite (C01_pairwise_exact _ H'), only_cands. apply (f_equal Ok). unfold matrix.
  apply map_ext_in. intros a Ha. apply filter_In in Ha as [_ Ha]. f_equal. apply map_ext_in. intros b Hb. apply filter_In in Hb as [_ Hb]. rewrite only_votes by assumption. reflexivity.
Qed.
Print Assumptions C94_pairwise.
Theorem C94_pairwise_cells : forall m keep pm pm' a b, tallyable m -> pairwise_count_dict m = Ok pm -> pairwise_count_dict (only keep m) = Ok pm' ->
  In a (cands m) -> In b (cands m) -> In a keep -> In b keep -> mat_get a b pm' = mat_get a b pm.
Proof.
  intros m keep pm pm' a b H E E' Ha Hb Hak Hbk. pose proof (only_tallyable keep m H) as H'.
  destruct (C01_cells m pm H E) as (_&_&C1&C2). destruct (C01_cells _ pm' H' E') as (_&_&D1&D2).
  assert (Ia : In a (cands (only keep m))) by (rewrite only_cands; apply filter_In; split; [exact Ha|apply memb_In, Hak]).
  assert (Ib : In b (cands (only keep m))) by (rewrite only_cands; apply filter_In; split; [exact Hb|apply memb_In, Hbk]).
  destruct (str_eq_dec a b) as [<-|Hn]; [rewrite C2, D2 by assumption; reflexivity|].
  rewrite C1, D1 by assumption. rewrite only_votes by (apply memb_In; assumption). reflexivity.
Qed.
Print Assumptions C94_pairwise_cells.

(** ** Copeland *)
Lemma count_split {X} (p q : X -> bool) l : count p l = count p (filter q l) + count p (filter (fun x => negb (q x)) l).
Proof.
  unfold count. induction l as [|x r IH]; [reflexivity|]. cbn [filter]. destruct (q x) eqn:Eq; cbn [negb filter]; destruct (p x) eqn:Ep; cbn [filter]; rewrite ?Ep; cbn [length]; lia.
Qed.
Lemma count_all {X} (p : X -> bool) l : (forall x, In x l -> p x = true) -> count p l = Z.of_nat (length l).
Proof. intro H. unfold count. rewrite filter_all by exact H. reflexivity. Qed.
Lemma others_filter c keep cs : others c (filter (fun x => memb x keep) cs) = filter (fun x => memb x keep) (others c cs).
Proof. unfold others. rewrite !filter_filter. apply filter_ext. intro x. apply andb_comm. Qed.
Lemma gone_others c keep cs : memb c keep = true -> filter (fun x => negb (memb x keep)) (others c cs) = filter (fun x => negb (memb x keep)) cs.
Proof.
  intro Hc. unfold others. rewrite filter_filter. apply filter_ext. intro x. destruct (str_eqb c x) eqn:E; [|reflexivity]. apply str_eqb_eq in E. subst x. rewrite Hc. reflexivity.
Qed.
Lemma only_score m keep cc cc' g c : tallyable m -> full_copecount m = Ok cc -> full_copecount (only keep m) = Ok cc' -> dominant m g -> incl g keep -> In c g ->
  exists s, score2 cc' c = Some s /\ score2 cc c = Some (s + 2 * Z.of_nat (length (filter (fun x => negb (memb x keep)) (cands m)))).
Proof.
  intros H E E' (Hg&_&Hd) Hk Hc. pose proof (only_tallyable keep m H) as H'. assert (Hck : memb c keep = true) by (apply memb_In, Hk, Hc).
  assert (Hcc : In c (cands (only keep m))) by (rewrite only_cands; apply filter_In; split; [apply Hg, Hc|exact Hck]).
  rewrite (score2_count _ cc' c H' E' Hcc), (score2_count m cc c H E (Hg c Hc)). eexists. split; [reflexivity|]. f_equal.
  rewrite (count_split _ (fun x => memb x keep) (others c (cands m))), (gone_others c keep _ Hck), (count_all _ (filter (fun x => negb (memb x keep)) (cands m))).
  - rewrite only_cands, others_filter.
    assert (Eq : count (fun b => negb (beats (votes_over (only keep m)) b c)) (filter (fun x => memb x keep) (others c (cands m)))
               = count (fun b => negb (beats (votes_over m) b c)) (filter (fun x => memb x keep) (others c (cands m)))); [|lia].
    unfold count. do 2 f_equal. apply filter_ext_in. intros b Hb. apply filter_In in Hb as [_ Hb]. unfold beats. rewrite !only_votes by assumption. reflexivity.
  - intros b Hb. apply filter_In in Hb as [Hb Hn]. assert (Hbg : ~ In b g) by (intro X; apply Hk, memb_In in X; rewrite X in Hn; discriminate).
    specialize (Hd c b Hc Hb Hbg). unfold beats. apply negb_true_iff, Z.ltb_ge. lia.
Qed.
(** Candidates who are beaten by everybody in a group can withdraw without changing the Copeland winners (who all belong to the group). *)
Theorem C94_copeland_dominated : forall m keep group cc ws cc' ws', tallyable m -> dominant m group -> incl group keep ->
  full_copecount m = Ok cc -> get_Copeland_winners cc = Ok ws -> full_copecount (only keep m) = Ok cc' -> get_Copeland_winners cc' = Ok ws' -> Permutation ws ws'.
Proof.
  intros m keep g cc ws cc' ws' H Hd Hk E W E' W'. pose proof (only_tallyable keep m H) as H'.
  assert (Hd' : dominant (only keep m) g).
  { destruct Hd as (D1&D2&D3). split; [|split; [exact D2|]].
    - intros c Hc. rewrite only_cands. apply filter_In. split; [apply D1, Hc|apply memb_In, Hk, Hc].
    - intros a b Ha Hb Hbg. rewrite only_cands in Hb. apply filter_In in Hb as [Hb Hbk]. rewrite !only_votes by (try exact Hbk; apply memb_In, Hk, Ha). apply D3; assumption. }
  destruct (C06_winners_are_argmax m cc ws H E W) as (A1&A2&A3). destruct (C06_winners_are_argmax _ cc' ws' H' E' W') as (B1&B2&B3).
  pose proof (C08_smith_criterion m cc ws g H E W Hd) as Sm. pose proof (C08_smith_criterion _ cc' ws' g H' E' W' Hd') as Sm'.
  assert (K : forall c, In c g -> exists s, score2 cc' c = Some s /\ score2 cc c = Some (s + 2 * Z.of_nat (length (filter (fun x => negb (memb x keep)) (cands m))))) by (intros c Hc; apply (only_score m keep cc cc' g c); assumption).
  set (D := 2 * Z.of_nat (length (filter (fun x => negb (memb x keep)) (cands m)))) in *.
  apply NoDup_Permutation; [exact A2|exact B2|]. intro c. split; intro Hc.
  - pose proof (Sm c Hc) as Hcg. destruct (K c Hcg) as (s&Es'&Es). apply A3 in Hc as (_&s1&Es1&Hmax). rewrite Es in Es1. apply some_inj in Es1. subst s1.
    apply B3. split; [apply (proj1 Hd'), Hcg|]. exists s. split; [exact Es'|]. intros c2 s2 Hc2 Es2.
    destruct ws' as [|w0 r]; [destruct (B1 eq_refl)|]. assert (Hw0 : In w0 (w0 :: r)) by (left; reflexivity). pose proof (Sm' w0 Hw0) as Hw0g. destruct (K w0 Hw0g) as (s0&Es0'&Es0).
    pose proof (Hmax w0 _ (proj1 Hd w0 Hw0g) Es0) as L1. apply B3 in Hw0 as (_&s0'&Es0''&Hmax0). rewrite Es0' in Es0''. apply some_inj in Es0''. subst s0'. pose proof (Hmax0 c2 s2 Hc2 Es2). lia.
  - pose proof (Sm' c Hc) as Hcg. destruct (K c Hcg) as (s&Es'&Es). apply B3 in Hc as (_&s1&Es1&Hmax). rewrite Es' in Es1. apply some_inj in Es1. subst s1.
    apply A3. split; [apply (proj1 Hd), Hcg|]. eexists. split; [exact Es|]. intros c2 s2 Hc2 Es2.
    destruct ws as [|w0 r]; [destruct (A1 eq_refl)|]. assert (Hw0 : In w0 (w0 :: r)) by (left; reflexivity). pose proof (Sm w0 Hw0) as Hw0g. destruct (K w0 Hw0g) as (s0&Es0'&Es0).
    pose proof (Hmax w0 _ (proj1 Hd' w0 Hw0g) Es0') as L1. apply A3 in Hw0 as (_&s0'&Es0''&Hmax0). rewrite Es0 in Es0''. apply some_inj in Es0''. subst s0'. pose proof (Hmax0 c2 s2 Hc2 Es2). lia.
Qed.
Print Assumptions C94_copeland_dominated.
(** In particular a Condorcet winner wins whoever else withdraws. *)
Theorem C94_condorcet : forall m keep c cc' ws', tallyable m -> In c (cands m) -> In c keep -> (forall b, In b (cands m) -> b <> c -> votes_over m b c < votes_over m c b) ->
  full_copecount (only keep m) = Ok cc' -> get_Copeland_winners cc' = Ok ws' -> ws' = [c].
Proof.
  intros m keep c cc' ws' H Hc Hk Hb E' W'. assert (Hck := proj2 (memb_In _ _) Hk). apply (C07_condorcet_winner _ cc' ws' c (only_tallyable keep m H) E' W').
  - rewrite only_cands. apply filter_In. auto.
  - intros b Hb'. rewrite only_cands in Hb'. apply filter_In in Hb' as [Hb1 Hb2]. rewrite !only_votes by assumption. apply Hb, Hb1.
Qed.
Print Assumptions C94_condorcet.

(** ** Score and STAR *)
Lemma only_total keep m c : memb c keep = true -> total_score (only keep m) c = total_score m c /\ supporters (only keep m) c = supporters m c.
Proof.
  intro Hc. split; unfold total_score, supporters, ballots_where; cbn [j_votelines only]; rewrite map_map; apply zsum_map_ext; intros l _; cbn [v_qty with_prefs];
    change (with_prefs l (filter (fun kv => memb (fst kv) keep) (v_prefs l))) with (strike keep l); rewrite rating_strike by exact Hc; reflexivity.
Qed.
Lemma only_scorable keep m : scorable m -> scorable (only keep m).
Proof.
  intros [H1 H2]. split; [rewrite only_cands; apply NoDup_filter, H1|]. intros l Hl. cbn in Hl. apply in_map_iff in Hl as (l0&<-&Hl0). destruct (H2 l0 Hl0) as [[Q1 Q2] Q3].
  split; [split|apply forallb_filter, Q3].
  - cbn. apply NoDup_map_fst_filter, Q1.
  - intros c Hc. cbn in Hc. apply in_map_iff in Hc as (kv&<-&Hkv). apply filter_In in Hkv as [Hkv Hg]. rewrite only_cands. apply filter_In. split; [apply Q2, in_map, Hkv|exact Hg].
Qed.
Lemma insert_filter {X} (leb : X -> X -> bool) (p : X -> bool) x l : (forall a b c, leb a b = true -> leb b c = true -> leb a c = true) -> (forall a b, leb a b = true \/ leb b a = true) ->
  StronglySorted (fun a b => leb a b = true) l -> filter p (insert_by leb x l) = if p x then insert_by leb x (filter p l) else filter p l.
Proof.
  intros Ht Htot. induction l as [|y r IH]; intro Hs; cbn [insert_by filter].
  - destruct (p x); reflexivity.
  - apply StronglySorted_inv in Hs as [Hs1 Hs2]. destruct (leb x y) eqn:Exy.
    + cbn [filter]. destruct (p x) eqn:Ex; [|reflexivity]. destruct (p y) eqn:Ey; [cbn [insert_by]; rewrite Exy; reflexivity|].
      (* x is before everything in r *)
      destruct (filter p r) as [|z q] eqn:Ef; [reflexivity|]. cbn [insert_by].
      assert (Hz : In z r) by (assert (In z (filter p r)) by (rewrite Ef; left; reflexivity); apply filter_In in H; apply H).
      rewrite Forall_forall in Hs2. rewrite (Ht x y z Exy (Hs2 z Hz)). reflexivity.
    + cbn [filter]. rewrite (IH Hs1). destruct (p y) eqn:Ey; [|reflexivity]. destruct (p x); [cbn [insert_by]; rewrite Exy; reflexivity|reflexivity].
Qed.
Lemma sort_desc_filter (k : str -> Z) (p : str -> bool) l : sort_desc k (filter p l) = filter p (sort_desc k l).
Proof.
  induction l as [|x r IH]; [reflexivity|]. cbn [filter]. change (sort_desc k (x :: r)) with (insert_by (fun x y => (k y <=? k x)%Z) x (sort_desc k r)).
  rewrite insert_filter.
  - rewrite <- IH. destruct (p x); reflexivity.
  - intros a b c. rewrite !Z.leb_le. lia.
  - intros a b. rewrite !Z.leb_le. lia.
  - pose proof (sort_desc_sorted k r) as S0. clear -S0. induction S0 as [|a l S1 IH1 F]; constructor; [exact IH1|]. eapply Forall_impl; [|exact F]. intros b Hb. apply Z.leb_le. exact Hb.
Qed.
Lemma only_order keep m : score_order (only keep m) = filter (fun c => memb c keep) (score_order m).
Proof.
  unfold score_order. rewrite only_cands, <- sort_desc_filter. apply sort_desc_ext. intros c Hc. apply filter_In in Hc as [_ Hc]. apply (only_total keep m c Hc).
Qed.
(** Nobody's score depends on the others: the score table of the remaining candidates is the old one without the others, in the same order. *)
Theorem C94_score : forall m keep sr, scorable m -> enhanced_score_result m = Ok sr -> exists sr', enhanced_score_result (only keep m) = Ok sr' /\
  sr_ranklist sr' = filter (fun c => memb c keep) (sr_ranklist sr) /\
  forall c, In c (cands m) -> In c keep -> exists si si', dget c (sr_scores sr) = Some si /\ dget c (sr_scores sr') = Some si' /\ si_score si' = si_score si /\ si_votercount si' = si_votercount si.
Proof.
  intros m keep sr H E. pose proof (only_scorable keep m H) as H'. destruct (C10_total_all_scores m sr H E) as (_&T1&_&Hb).
  destruct (proj2 (C11_defined _ H') (ex_intro _ (sr_totalvoters sr) Hb)) as (sr'&E'). exists sr'. split; [exact E'|].
  destruct (C10_total_all_scores _ sr' H' E') as (_&T2&_&Hb'). split.
  - rewrite (enhanced_ok m _ H Hb) in E. rewrite (enhanced_ok _ _ H' Hb') in E'. apply ok_inj in E, E'. apply (f_equal sr_ranklist) in E, E'. cbn [sr_ranklist] in E, E'. rewrite <- E, <- E'. apply only_order.
  - intros c Hc Hk. assert (Hck := proj2 (memb_In _ _) Hk). destruct (T1 c Hc) as (si&S1&S2&S3). destruct (T2 c) as (si'&S1'&S2'&S3'); [rewrite only_cands; apply filter_In; auto|].
    destruct (only_total keep m c Hck) as [Q1 Q2]. exists si, si'. repeat split; congruence.
Qed.
Print Assumptions C94_score.
(** As long as both finalists stay, the STAR runoff is the same. *)
Theorem C94_star : forall m keep bc st, scorable m -> tallyable m -> dget k_ballotcount (j_metadata m) = Some (JInt bc) -> STAR_result m = Ok st ->
  In (st_fin1 st) keep -> In (st_fin2 st) keep ->
  exists st', STAR_result (only keep m) = Ok st' /\ st_winner st' = st_winner st /\ st_fin1 st' = st_fin1 st /\ st_fin2 st' = st_fin2 st /\
    st_fin1votes st' = st_fin1votes st /\ st_fin2votes st' = st_fin2votes st.
Proof.
  intros m keep bc st Hs Ht Hb E K1 K2. destruct (C12_star_runoff m bc st Hs Ht Hb E) as (f1&f2&n1&n2&F&Eb&N1&N2&_&G1&G2&_&_&V1&V2&X1&X2&X3). rewrite G1 in K1. rewrite G2 in K2.
  pose proof (only_scorable keep m Hs) as Hs'. pose proof (only_tallyable keep m Ht) as Ht'. assert (Hb' : dget k_ballotcount (j_metadata (only keep m)) = Some (JInt bc)) by exact Hb.
  assert (Er : sr_ranklist (st_base st) = score_order m) by (rewrite (enhanced_ok m _ Hs Hb) in Eb; apply ok_inj in Eb; rewrite <- Eb; reflexivity).
  assert (Hr : exists rest, score_order m = f1 :: f2 :: rest). { rewrite Er in F. destruct (score_order m) as [|x [|y rest]]; try discriminate. cbn in F. injection F as <- <-. eauto. }
  destruct Hr as (rest&Hr). assert (M1 := proj2 (memb_In _ _) K1). assert (M2 := proj2 (memb_In _ _) K2).
  assert (Hr' : score_order (only keep m) = f1 :: f2 :: filter (fun c => memb c keep) rest) by (rewrite only_order, Hr; cbn [filter]; rewrite M1, M2; reflexivity).
  assert (P' : Permutation (score_order (only keep m)) (cands (only keep m))) by apply sort_desc_perm.
  destruct (proj1 (C12_star_total _ bc Hs' Ht' Hb')) as (st'&E'). { rewrite <- (Permutation_length P'), Hr'. cbn. lia. }
  exists st'. split; [exact E'|]. destruct (C12_star_runoff _ bc st' Hs' Ht' Hb' E') as (f1'&f2'&n1'&n2'&F'&Eb'&N1'&N2'&_&G1'&G2'&_&_&V1'&V2'&X1'&X2'&X3').
  assert (Er' : sr_ranklist (st_base st') = score_order (only keep m)) by (rewrite (enhanced_ok _ _ Hs' Hb') in Eb'; apply ok_inj in Eb'; rewrite <- Eb'; reflexivity).
  rewrite Er', Hr' in F'. cbn in F'. injection F' as <- <-.
  assert (Nm : forall c, memb c keep = true -> dget c (j_candidates (only keep m)) = dget c (j_candidates m)).
  { intros c Hc. cbn [only j_candidates]. generalize (j_candidates m). induction d as [|[k v] d IH]; [reflexivity|]. cbn [filter fst]. destruct (memb k keep) eqn:Ek; cbn [dget]; destruct (str_eqb c k) eqn:Ec; auto. apply str_eqb_eq in Ec. subst k. congruence. }
  rewrite (Nm f1 M1), N1 in N1'. apply some_inj in N1'. rewrite (Nm f2 M2), N2 in N2'. apply some_inj in N2'. subst n1' n2'.
  rewrite (only_votes keep m f1 f2 M1 M2), (only_votes keep m f2 f1 M2 M1) in *.
  split; [|repeat split; congruence]. destruct (Z.lt_trichotomy (votes_over m f1 f2) (votes_over m f2 f1)) as [L|[L|L]].
  - rewrite X2, X2' by lia. reflexivity.
  - rewrite X3, X3' by exact L. reflexivity.
  - rewrite X1, X1' by lia. reflexivity.
Qed.
Print Assumptions C94_star.

(** ** Examples *)
(** A, B and C beat each other in a circle and all beat D: D's withdrawal changes nothing. *)
Definition circle : jabmod := Jabmod [] [(A, u "Ann"); (B, u "Bob"); (C, u "Cy"); (D, u "Di")]
  [ vl 1 [(A, ranked 1); (B, ranked 2); (C, ranked 3); (D, ranked 4)]; vl 1 [(B, ranked 1); (C, ranked 2); (A, ranked 3); (D, ranked 4)]; vl 1 [(C, ranked 1); (A, ranked 2); (B, ranked 3); (D, ranked 4)] ].
Example C94_nonvacuous : exists cc cc', tallyable circle /\ dominant circle [A; B; C] /\ full_copecount circle = Ok cc /\ get_Copeland_winners cc = Ok [A; B; C] /\
  full_copecount (only [A; B; C] circle) = Ok cc' /\ get_Copeland_winners cc' = Ok [A; B; C].
Proof.
  do 2 eexists. split; [split; [nodup|]|].
  { intros l Hl. assert (G : forallb (line_ranked maxsize) (j_votelines circle) = true) by (vm_compute; reflexivity). rewrite forallb_forall in G. auto. }
  split; [|split; [vm_compute; reflexivity|split; [vm_compute; reflexivity|split; vm_compute; reflexivity]]].
  split; [intros c Hc; cbn in Hc; cbn; tauto|]. split; [discriminate|]. intros a b Ha Hb Hn. cbn in Ha, Hb. repeat destruct Hb as [<-|Hb]; try destruct Hb; try (exfalso; apply Hn; cbn; tauto).
  repeat destruct Ha as [<-|Ha]; try destruct Ha; vm_compute; reflexivity.
Qed.
(** In general the withdrawal of a candidate who does not win can make someone else a winner: here D's withdrawal brings A in. *)
Definition crowded : jabmod := Jabmod [] [(A, u "Ann"); (B, u "Bob"); (C, u "Cy"); (D, u "Di")]
  [ vl 1 [(A, ranked 1); (B, ranked 2); (C, ranked 3); (D, ranked 4)]; vl 1 [(B, ranked 1); (C, ranked 2); (D, ranked 3); (A, ranked 4)]; vl 1 [(C, ranked 1); (D, ranked 2); (A, ranked 3); (B, ranked 4)] ].
Theorem C94_copeland_refuted : exists cc cc', tallyable crowded /\ full_copecount crowded = Ok cc /\ get_Copeland_winners cc = Ok [B; C] /\
  full_copecount (only [A; B; C] crowded) = Ok cc' /\ get_Copeland_winners cc' = Ok [A; B; C].
Proof.
  do 2 eexists. split; [split; [nodup|]|].
  { intros l Hl. assert (G : forallb (line_ranked maxsize) (j_votelines crowded) = true) by (vm_compute; reflexivity). rewrite forallb_forall in G. auto. }
  split; [vm_compute; reflexivity|]. split; [vm_compute; reflexivity|]. split; vm_compute; reflexivity.
Qed.
Print Assumptions C94_copeland_refuted.
(** And the withdrawal of the losing finalist can decide a STAR election. *)
Definition rr (r z : Z) : pref := Pref (Some r) (Some (RInt z)) None.
Definition third : jabmod := Jabmod [(k_ballotcount, JInt 5)] [(A, u "Ann"); (B, u "Bob"); (C, u "Cy")]
  [ vl 2 [(A, rr 1 5); (B, rr 2 4)]; vl 3 [(C, rr 1 3); (A, rr 2 2); (B, rr 3 1)] ].
Theorem C94_star_refuted : exists st st', STAR_result third = Ok st /\ st_fin1 st = A /\ st_fin2 st = B /\ st_winner st = u "Ann" /\
  STAR_result (only [A; C] third) = Ok st' /\ st_winner st' = u "Cy".
Proof. do 2 eexists. split; [vm_compute; reflexivity|]. split; [reflexivity|]. split; [reflexivity|]. split; [reflexivity|]. split; [vm_compute; reflexivity|reflexivity]. Qed.
Print Assumptions C94_star_refuted.
