(** * IrvCounts: what IRV makes of two lists of votelines that hold the same ballots *)

From Coq Require Import Lia Permutation.
From Verif Require Import PyBase PyFacts Jabmod PairwiseModel Spec PairwiseFacts IrvModel IrvFacts IrvStrict IrvTrace IrvCriteria.
Local Open Scope Z_scope.

(** The two lines mark the candidates of [cs] alike: the same ones listed, with the same ranks and ratings. *)
Definition same_marks (cs : list str) (v w : voteline) : bool :=
  forallb (fun c => eqb (lists v c) (lists w c) && (rating_on v c =? rating_on w c) &&
                    match rank_on v c, rank_on w c with Some x, Some y => x =? y | None, None => true | _, _ => false end) cs.
(** For every way of marking the candidates, both lists have equally many ballots marked that way. *)
Definition same_counts (cs : list str) (ls ls' : list voteline) : Prop :=
  forall v, ballots_where (same_marks cs v) ls = ballots_where (same_marks cs v) ls'.

Lemma same_marks_iff cs v w : same_marks cs v w = true <->
  forall c, In c cs -> lists v c = lists w c /\ rating_on v c = rating_on w c /\ rank_on v c = rank_on w c.
Proof.
  unfold same_marks. rewrite forallb_forall. split; intros H c Hc; specialize (H c Hc).
  - rewrite !andb_true_iff in H. destruct H as ((H1&H2)&H3). apply eqb_prop in H1. apply Z.eqb_eq in H2. split; [exact H1|]. split; [exact H2|].
    destruct (rank_on v c), (rank_on w c); try discriminate; [|reflexivity]. f_equal. lia.
  - destruct H as (->&->&->). rewrite eqb_reflx, Z.eqb_refl. destruct (rank_on w c); [apply Z.eqb_refl|reflexivity].
Qed.
Lemma sm_refl cs v : same_marks cs v v = true.
Proof. apply same_marks_iff. auto. Qed.
Lemma sm_sym cs v w : same_marks cs v w = same_marks cs w v.
Proof.
  assert (X : forall v w, same_marks cs v w = true -> same_marks cs w v = true).
  { intros a b H. rewrite same_marks_iff in H. apply same_marks_iff. intros c Hc. destruct (H c Hc) as (->&->&->). auto. }
  destruct (same_marks cs v w) eqn:E1, (same_marks cs w v) eqn:E2; auto; [apply X in E1|apply X in E2]; congruence.
Qed.
Lemma sm_trans cs v w x : same_marks cs v w = true -> same_marks cs w x = true -> same_marks cs v x = true.
Proof.
  intros H K. rewrite same_marks_iff in H, K. apply same_marks_iff. intros c Hc. destruct (H c Hc) as (->&->&->). apply K, Hc.
Qed.

(** One line for every way of marking that occurs. *)
Fixpoint ways (cs : list str) (ls : list voteline) : list voteline :=
  match ls with [] => [] | v :: r => v :: filter (fun w => negb (same_marks cs v w)) (ways cs r) end.
Lemma ways_sum cs (f : voteline -> Z) ls l : (forall v w, same_marks cs v w = true -> f v = f w) -> In l ls ->
  zsum (map (fun v => if same_marks cs v l then f v else 0) (ways cs ls)) = f l.
Proof.
  intro Hf.
  assert (Z0 : forall l ls, (forall v, In v ls -> same_marks cs v l = false) -> zsum (map (fun v => if same_marks cs v l then f v else 0) ls) = 0).
  { clear. intros l ls. induction ls as [|v ls IH]; intro H; [reflexivity|]. cbn [map zsum]. rewrite (H v (or_introl eq_refl)), IH; [reflexivity|]. intros w Hw. apply H. right; exact Hw. }
  revert l. induction ls as [|v ls IH]; intros l Hl; [destruct Hl|]. cbn [ways map zsum].
  destruct (same_marks cs v l) eqn:E.
  - rewrite (Hf v l E), Z0; [lia|]. intros w Hw. apply filter_In in Hw as (_&Hw). apply negb_true_iff in Hw.
    destruct (same_marks cs w l) eqn:E2; [|reflexivity]. rewrite sm_sym in E2. rewrite (sm_trans _ _ _ _ E E2) in Hw. discriminate.
  - destruct Hl as [->|Hl]; [rewrite sm_refl in E; discriminate|]. rewrite <- (IH l Hl).
    assert (X : forall ws, zsum (map (fun v0 => if same_marks cs v0 l then f v0 else 0) (filter (fun w => negb (same_marks cs v w)) ws)) = zsum (map (fun v0 => if same_marks cs v0 l then f v0 else 0) ws)).
    { clear - E Hf. induction ws as [|w ws IH]; [reflexivity|]. cbn [filter map zsum]. destruct (same_marks cs v w) eqn:E2; cbn [negb map zsum]; rewrite IH; [|reflexivity].
      destruct (same_marks cs w l) eqn:E3; [|lia]. rewrite (sm_trans _ _ _ _ E2 E3) in E. discriminate. }
    rewrite X. lia.
Qed.
Lemma ways_In cs ls l : In l ls -> exists v, In v (ways cs ls) /\ same_marks cs v l = true.
Proof.
  intro H. induction ls as [|x ls IH]; [destruct H|]. cbn [ways]. destruct (same_marks cs x l) eqn:E; [exists x; split; [left; reflexivity|exact E]|].
  destruct H as [->|H]; [rewrite sm_refl in E; discriminate|]. destruct (IH H) as (v&Hv&Ev). exists v. split; [|exact Ev]. right. apply filter_In. split; [exact Hv|].
  apply negb_true_iff. destruct (same_marks cs x v) eqn:E2; [|reflexivity]. rewrite (sm_trans _ _ _ _ E2 Ev) in E. discriminate.
Qed.

(** Every sum over the ballots of something that depends on the marks only is the same. *)
Lemma weigh_by_way cs (f : voteline -> Z) all ls : (forall v w, same_marks cs v w = true -> f v = f w) -> incl ls all ->
  zsum (map (fun l => v_qty l * f l) ls) = zsum (map (fun v => f v * ballots_where (same_marks cs v) ls) (ways cs all)).
Proof.
  intros Hf Hi.
  transitivity (zsum (map (fun l => zsum (map (fun v => if same_marks cs v l then v_qty l * f v else 0) (ways cs all))) ls)).
  - apply zsum_map_ext. intros l Hl. rewrite <- (ways_sum cs f all l Hf (Hi l Hl)) at 1. generalize (ways cs all) as ws. induction ws as [|w ws IH]; [cbn; lia|].
    cbn [map zsum]. rewrite <- IH. destruct (same_marks cs w l); lia.
  - rewrite zsum_map_swap. apply zsum_map_ext. intros v _. unfold ballots_where. clear. induction ls as [|l ls IH]; [cbn; lia|]. cbn [map zsum]. rewrite IH. destruct (same_marks cs v l); lia.
Qed.
Lemma same_weight cs ls ls' f : same_counts cs ls ls' -> (forall v w, same_marks cs v w = true -> f v = f w) ->
  zsum (map (fun l => v_qty l * f l) ls) = zsum (map (fun l => v_qty l * f l) ls').
Proof.
  intros H Hf. rewrite (weigh_by_way cs f (ls ++ ls') ls Hf), (weigh_by_way cs f (ls ++ ls') ls' Hf).
  - apply zsum_map_ext. intros v _. rewrite H. reflexivity.
  - intros x Hx. apply in_or_app. right; exact Hx.
  - intros x Hx. apply in_or_app. left; exact Hx.
Qed.
Lemma same_question cs ls ls' p : same_counts cs ls ls' -> (forall v w, same_marks cs v w = true -> p v = p w) -> ballots_where p ls = ballots_where p ls'.
Proof.
  intros H Hp. pose proof (same_weight cs ls ls' (fun l => if p l then 1 else 0) H) as X.
  assert (E : forall ls, ballots_where p ls = zsum (map (fun l => v_qty l * (if p l then 1 else 0)) ls)).
  { intro l. apply zsum_map_ext. intros v _. destruct (p v); lia. }
  rewrite !E. apply X. intros v w E'. rewrite (Hp v w E'). reflexivity.
Qed.
Lemma same_counts_of cs ls ls' : (forall p, (forall v w, same_marks cs v w = true -> p v = p w) -> ballots_where p ls = ballots_where p ls') -> same_counts cs ls ls'.
Proof.
  intros H v. apply H. intros a b E. destruct (same_marks cs v a) eqn:E1, (same_marks cs v b) eqn:E2; auto; exfalso.
  - rewrite (sm_trans _ _ _ _ E1 E) in E2. discriminate.
  - rewrite sm_sym in E. rewrite (sm_trans _ _ _ _ E2 E) in E1. discriminate.
Qed.

Lemma rating_on_without e l c : rating_on (without e l) c = if memb c e then 0 else rating_on l c.
Proof. unfold rating_on. rewrite dget_without. destruct (memb c e); reflexivity. Qed.
Lemma sm_without cs e v w : same_marks cs v w = true -> same_marks cs (without e v) (without e w) = true.
Proof.
  intro H. rewrite same_marks_iff in H. apply same_marks_iff. intros c Hc. destruct (H c Hc) as (H1&H2&H3).
  rewrite !lists_without, !rating_on_without, !rank_on_without, H1, H2, H3. auto.
Qed.
Lemma same_counts_without cs e ls ls' : same_counts cs ls ls' -> same_counts cs (map (without e) ls) (map (without e) ls').
Proof.
  intro H. apply same_counts_of. intros p Hp. rewrite !ballots_where_without. apply (same_question cs _ _ _ H).
  intros v w E. apply Hp, sm_without, E.
Qed.
Lemma sm_top cs0 cs v w c : incl cs cs0 -> same_marks cs0 v w = true -> top_choice cs v c = top_choice cs w c.
Proof.
  intros Hi H. rewrite same_marks_iff in H. unfold top_choice. destruct (memb c cs) eqn:Em; [|reflexivity]. apply memb_In in Em. destruct (H c (Hi c Em)) as (H1&_&H3). rewrite H1. f_equal.
  assert (X : forall l, incl l cs -> forallb (fun d => str_eqb c d || prefers v c d) l = forallb (fun d => str_eqb c d || prefers w c d) l); [|apply X, incl_refl].
  induction l as [|d l IH]; intro Hl; [reflexivity|]. cbn [forallb]. rewrite IH by (intros x Hx; apply Hl; right; exact Hx). f_equal. f_equal.
  destruct (H d (Hi d (Hl d (or_introl eq_refl)))) as (_&_&K3). unfold prefers. rewrite H3, K3. reflexivity.
Qed.
Lemma sm_nobody cs0 cs v w : incl cs cs0 -> same_marks cs0 v w = true -> lists_nobody cs v = lists_nobody cs w.
Proof.
  intros Hi H. rewrite same_marks_iff in H. unfold lists_nobody. revert Hi. induction cs as [|c cs IH]; intro Hi; [reflexivity|]. cbn [forallb].
  rewrite IH by (intros x Hx; apply Hi; right; exact Hx). destruct (H c (Hi c (or_introl eq_refl))) as (->&_). reflexivity.
Qed.

Lemma without_nil l : without [] l = l.
Proof. destruct l as [q ps cm pf vid nq]. unfold without, with_prefs. cbn. f_equal. apply filter_all. reflexivity. Qed.
Lemma strict_counts cs ls : lines_inv cs ls -> strict_lines ls ->
  (forall c, tally ls c = ballots_where (fun l => top_choice cs l c) ls) /\ exhausted ls = ballots_where (lists_nobody cs) ls.
Proof.
  intros Hl Hs. destruct (strict_tally cs ls [] cs ls (strict_init cs ls Hl Hs) Hl) as (_&_&H1&H2). split; assumption.
Qed.

Lemma irv_count_same o fuel n pa cs0 cs ls ls' :
  valid_oracle o -> incl cs cs0 -> NoDup cs -> cs <> [] -> lines_inv cs ls -> strict_lines ls -> lines_inv cs ls' -> strict_lines ls' -> same_counts cs0 ls ls' ->
  irv_count fuel o n pa cs ls = irv_count fuel o n pa cs ls'.
Proof.
  intro Ho. revert n pa cs ls ls'. induction fuel as [|f IH]; intros n pa cs ls ls' Hi Hn Hne Hl Hs Hl' Hs' P; [reflexivity|].
  destruct (strict_pruned cs ls Hl Hs) as [Ep Eo]. destruct (strict_pruned cs ls' Hl' Hs') as [Ep' Eo'].
  destruct (strict_counts cs ls Hl Hs) as (St&Se). destruct (strict_counts cs ls' Hl' Hs') as (St'&Se').
  assert (Et : forall c, tally ls c = tally ls' c).
  { intro c. rewrite St, St'. apply (same_question cs0 _ _ _ P). intros v w E. exact (sm_top cs0 cs v w c Hi E). }
  assert (Ex : exhausted ls = exhausted ls').
  { rewrite Se, Se'. apply (same_question cs0 _ _ _ P). intros v w E. exact (sm_nobody cs0 cs v w Hi E). }
  assert (Eq : zsum (map v_qty ls) = zsum (map v_qty ls')).
  { pose proof (same_weight cs0 ls ls' (fun _ => 1) P ltac:(auto)) as X. cbv beta in X. transitivity (zsum (map (fun l => v_qty l * 1) ls)); [apply zsum_map_ext; intros; lia|].
    rewrite X. apply zsum_map_ext; intros; lia. }
  cbn [irv_count].
  destruct (irv_round_ok cs ls Hn Hne Hl) as (mn&mx&pen&Er&Hmn&Hmx&Hp).
  destruct (irv_round_ok cs ls' Hn Hne Hl') as (mn'&mx'&pen'&Er'&Hmn'&Hmx'&Hp').
  assert (R : round_numbers cs ls mn mx pen) by (constructor; assumption).
  destruct (numbers_unique cs cs ls ls' mn mx pen mn' mx' pen' (fun c => iff_refl _) Et R) as (<-&<-&<-); [constructor; assumption|].
  rewrite Er, Er'. cbn [bind].
  assert (Ed : dmap cs (tally ls) = dmap cs (tally ls')) by (apply dmap_ext; intros c _; apply Et).
  assert (Ez : zsum (map (tally ls) cs) = zsum (map (tally ls') cs)) by (apply zsum_map_ext; intros c _; apply Et).
  assert (Eed : elim_decision o n (ri_of cs ls mn mx pen) = elim_decision o n (ri_of cs ls' mn mx pen))
    by (apply elim_decision_ext; [exact Ed|reflexivity|reflexivity]).
  assert (Emc : max_cands (ri_of cs ls mn mx pen) = max_cands (ri_of cs ls' mn mx pen))
    by (unfold max_cands; cbn [ri_of ri_roundcount ri_max]; rewrite Ed; reflexivity).
  destruct (elim_facts o n cs ls mn mx pen _ Hn R eq_refl) as (He1&He2&He3&He4&He5).
  rewrite <- Eed, <- Emc.
  set (ed := elim_decision o n (ri_of cs ls mn mx pen)) in *. set (mc := max_cands (ri_of cs ls mn mx pen)). clearbody ed mc.
  cbn [ri_of ri_min ri_max ri_total ri_exhausted ri_overvotes ri_ballotcount ri_penult ri_pruned ri_roundcount].
  rewrite Ed, Ez, Ex, Ep, Ep', Eo, Eo', Eq.
  destruct (Z.eqb_spec mn mx) as [Heq|Hneq]; [reflexivity|].
  destruct (2 * mx >? zsum (map (tally ls') cs)); [reflexivity|].
  rewrite !eliminate_eq by (intros l Hll; first [apply Hl; exact Hll|apply Hl'; exact Hll]).
  rewrite (IH (S n) (Some (all_elim pa ed)) (o_order o n (set_minus cs (ed_eliminated ed)))
              (map (without (ed_eliminated ed)) ls) (map (without (ed_eliminated ed)) ls')); [reflexivity| | | | | | | |].
  - intros c Hc. apply Hi. apply (Permutation_in _ (Ho _ _)), set_minus_In in Hc. tauto.
  - apply (Permutation_NoDup (Permutation_sym (Ho _ _))). apply NoDup_filter; exact Hn.
  - destruct (He5 Hneq) as [c [Hc [Hce _]]]. intro E0.
    assert (Hin : In c (o_order o n (set_minus cs (ed_eliminated ed))))
      by (apply (Permutation_in _ (Permutation_sym (Ho _ _))), set_minus_In; auto).
    rewrite E0 in Hin. destruct Hin.
  - apply (next_lines_inv cs); [exact Hl|]. intros c Hc. apply (Permutation_in _ (Permutation_sym (Ho _ _))). exact Hc.
  - intros l Hll. apply in_map_iff in Hll as [l0 [<- Hl0]]. apply strict_without, Hs, Hl0.
  - apply (next_lines_inv cs); [exact Hl'|]. intros c Hc. apply (Permutation_in _ (Permutation_sym (Ho _ _))). exact Hc.
  - intros l Hll. apply in_map_iff in Hll as [l0 [<- Hl0]]. apply strict_without, Hs', Hl0.
  - apply same_counts_without. exact P.
Qed.
