(** * Property C69: how score and STAR results respond to changes of the input (abiflib/scorestar.py):
    joining two counts, reordering, renaming and multiplying, raising the winner. *)

From Verif Require Import PyBase PyFacts Jabmod PairwiseModel Spec PairwiseFacts PropsPairwise ScoreModel ScoreFacts
  PropsScore PropsCopeMore.
Local Open Scope Z_scope.

(** ** Sorting facts *)
Lemma insert_filter {X} (k : X -> Z) (p : X -> bool) x l :
  StronglySorted (fun a b => k b <= k a) l ->
  filter p (insert_by (fun a b => k b <=? k a) x l) =
  if p x then insert_by (fun a b => k b <=? k a) x (filter p l) else filter p l.
Proof.
  induction 1 as [|y r Hr IH Hy]; simpl.
  - destruct (p x); reflexivity.
  - destruct (Z.leb_spec (k y) (k x)); simpl.
    + destruct (p x) eqn:Ex, (p y) eqn:Ey; simpl; try reflexivity.
      * rewrite (proj2 (Z.leb_le _ _) H). reflexivity.
      * destruct (filter p r) as [|z q] eqn:Ef; [reflexivity|]. simpl.
        assert (Hz : In z r) by (apply (filter_In p); rewrite Ef; left; reflexivity).
        rewrite Forall_forall in Hy. specialize (Hy z Hz). rewrite (proj2 (Z.leb_le _ _)); [reflexivity|lia].
    + rewrite IH. destruct (p x) eqn:Ex, (p y) eqn:Ey; simpl; try reflexivity.
      rewrite (proj2 (Z.leb_gt _ _) H). reflexivity.
Qed.

Lemma sort_desc_filter {X} (k : X -> Z) (p : X -> bool) l :
  filter p (sort_desc k l) = sort_desc k (filter p l).
Proof.
  induction l as [|x r IH]; [reflexivity|].
  change (sort_desc k (x :: r)) with (insert_by (fun a b => k b <=? k a) x (sort_desc k r)).
  rewrite (insert_filter k) by apply sort_desc_sorted. rewrite IH. cbn [filter]. destruct (p x); reflexivity.
Qed.

(** [w] is the first of the greatest elements of [l]. *)
Definition first_max {X} (k : X -> Z) (l : list X) (w : X) : Prop :=
  exists l1 l2, l = l1 ++ w :: l2 /\ (forall x, In x l1 -> k x < k w) /\ (forall x, In x l2 -> k x <= k w).

Lemma filter_none {X} (p : X -> bool) l : (forall x, In x l -> p x = false) -> filter p l = [].
Proof. induction l as [|x r IH]; intro H; simpl; [reflexivity|]. rewrite H by (left; reflexivity). apply IH. intros; apply H; right; assumption. Qed.

Lemma first_max_head {X} (k : X -> Z) l w : first_max k l w -> exists r, sort_desc k l = w :: r.
Proof.
  intros (l1&l2&->&H1&H2). set (l := l1 ++ w :: l2).
  pose proof (sort_desc_sorted k l) as Hs. pose proof (sort_desc_perm k l) as P. pose proof (sort_desc_stable k l (k w)) as St.
  assert (Hf : filter (fun x => k x =? k w) l = w :: filter (fun x => k x =? k w) l2).
  { unfold l. rewrite filter_app. cbn [filter]. rewrite Z.eqb_refl, filter_none; [reflexivity|].
    intros x Hx. apply Z.eqb_neq. specialize (H1 x Hx). lia. }
  destruct (sort_desc k l) as [|h r] eqn:E0.
  - apply Permutation_sym in P. assert (Hw : In w []) by (apply (Permutation_in _ P), in_or_app; right; left; reflexivity). destruct Hw.
  - exists r. f_equal. inversion Hs as [|? ? _ Hh]; subst. rewrite Forall_forall in Hh.
    assert (Hw : In w (h :: r)) by (apply (Permutation_in _ (Permutation_sym P)), in_or_app; right; left; reflexivity).
    assert (Hhl : In h l) by (apply (Permutation_in _ P); left; reflexivity).
    assert (k h <= k w) by (apply in_app_or in Hhl as [Hh'|[<-|Hh']]; [specialize (H1 _ Hh'); lia|lia|apply H2; exact Hh']).
    assert (k w <= k h) by (destruct Hw as [<-|Hw]; [lia|apply Hh; exact Hw]).
    rewrite Hf in St. cbn [filter] in St. rewrite (proj2 (Z.eqb_eq (k h) (k w))) in St by lia. congruence.
Qed.

Lemma head_first_max {X} (k : X -> Z) l w r : sort_desc k l = w :: r -> first_max k l w.
Proof.
  intro E0. pose proof (sort_desc_sorted k l) as Hs. pose proof (sort_desc_perm k l) as P.
  pose proof (sort_desc_stable k l (k w)) as St. rewrite E0 in Hs, P, St. cbn [filter] in St. rewrite Z.eqb_refl in St.
  inversion Hs as [|? ? _ Hh]; subst. rewrite Forall_forall in Hh.
  assert (Hmax : forall x, In x l -> k x <= k w).
  { intros x Hx. apply (Permutation_in _ (Permutation_sym P)) in Hx as [<-|Hx]; [lia|apply Hh; exact Hx]. }
  clear E0 Hs P Hh. revert St Hmax. generalize (filter (fun x => k x =? k w) r). intros q St Hmax.
  induction l as [|y l IH]; cbn [filter] in St; [discriminate|].
  destruct (Z.eqb_spec (k y) (k w)) as [Ey|Ey].
  - injection St as <- _. exists [], l. split; [reflexivity|]. split; [intros x []|]. intros x Hx. apply Hmax; right; exact Hx.
  - destruct IH as (l1&l2&->&H1&H2); [exact St|intros; apply Hmax; right; assumption|].
    exists (y :: l1), l2. split; [reflexivity|]. split; [|exact H2].
    intros x [<-|Hx]; [|apply H1; exact Hx]. specialize (Hmax y (or_introl eq_refl)). lia.
Qed.

Lemma split_unique {X} (w : X) l1 l2 l1' l2' : NoDup (l1 ++ w :: l2) -> l1 ++ w :: l2 = l1' ++ w :: l2' -> l1 = l1' /\ l2 = l2'.
Proof.
  revert l1'. induction l1 as [|x r IH]; intros [|x' r'] Hn E0; simpl in *.
  - injection E0 as ->. auto.
  - injection E0 as <- ->. inversion Hn as [|? ? Hx _]; subst. exfalso. apply Hx, in_or_app. right; left; reflexivity.
  - injection E0 as -> _. inversion Hn as [|? ? Hx _]; subst. exfalso. apply Hx, in_or_app. right; left; reflexivity.
  - injection E0 as -> E0. inversion Hn as [|? ? _ Hn']; subst. destruct (IH r' Hn' E0) as [-> ->]. auto.
Qed.

(** ** Joining two counts *)
Definition together (md : dict json) (m1 m2 : jabmod) : jabmod :=
  Jabmod md (j_candidates m1) (j_votelines m1 ++ j_votelines m2).

Lemma scorable_together md m1 m2 : j_candidates m2 = j_candidates m1 -> scorable m1 -> scorable m2 ->
  scorable (together md m1 m2).
Proof.
  intros Hc H1 H2. split; [apply H1|]. intros l Hl. cbn [together j_votelines] in Hl.
  apply in_app_or in Hl as [Hl|Hl]; [apply (proj2 H1 l Hl)|]. change (cands (together md m1 m2)) with (cands m1).
  replace (cands m1) with (cands m2) by (unfold cands; rewrite Hc; reflexivity). apply (proj2 H2 l Hl).
Qed.

Lemma total_together md m1 m2 c : total_score (together md m1 m2) c = total_score m1 c + total_score m2 c.
Proof. unfold total_score. cbn [together j_votelines]. rewrite map_app, zsum_app. reflexivity. Qed.

Lemma ranklist_order m sr : scorable m -> enhanced_score_result m = Ok sr ->
  sr_ranklist sr = sort_desc (total_score m) (cands m).
Proof.
  intros H E0. destruct (dget k_ballotcount (j_metadata m)) as [bc|] eqn:Eb;
    [|rewrite (enhanced_err m H Eb) in E0; discriminate].
  rewrite (enhanced_ok m bc H Eb) in E0. apply ok_inj in E0. subst sr. reflexivity.
Qed.

(** Scores and supporters of the joint count are the sums. *)
Theorem C69_joint_score : forall md m1 m2 r1 r2 r c s1 s2, j_candidates m2 = j_candidates m1 ->
  scorable m1 -> scorable m2 ->
  basic_score_result m1 = Ok r1 -> basic_score_result m2 = Ok r2 -> basic_score_result (together md m1 m2) = Ok r ->
  dget c r1 = Some s1 -> dget c r2 = Some s2 ->
  exists s, dget c r = Some s /\ si_candname s = si_candname s1 /\
    si_score s = si_score s1 + si_score s2 /\ si_votercount s = si_votercount s1 + si_votercount s2.
Proof.
  intros md m1 m2 r1 r2 r c s1 s2 Hc H1 H2 E1 E2 E0 G1 G2.
  pose proof (scorable_together md m1 m2 Hc H1 H2) as H.
  rewrite (basic_score_ok _ H1) in E1. rewrite (basic_score_ok _ H2) in E2. rewrite (basic_score_ok _ H) in E0.
  apply ok_inj in E1. apply ok_inj in E2. apply ok_inj in E0. subst r1 r2 r.
  rewrite dget_dmap in G1, G2. destruct (memb c (cands m1)) eqn:Em; [|discriminate].
  destruct (memb c (cands m2)); [|discriminate]. apply some_inj in G1. apply some_inj in G2. subst s1 s2.
  rewrite dget_dmap. change (cands (together md m1 m2)) with (cands m1). rewrite Em. eexists. split; [reflexivity|].
  cbn [si_candname si_score si_votercount]. split; [reflexivity|]. split; [apply total_together|].
  unfold supporters, ballots_where. cbn [together j_votelines]. rewrite map_app, zsum_app. reflexivity.
Qed.
Print Assumptions C69_joint_score.

(** A candidate that wins (comes first in the score ranking of) both counts wins the joint count. *)
Theorem C69_consistency : forall md m1 m2 sr1 sr2 sr w q1 q2, j_candidates m2 = j_candidates m1 ->
  scorable m1 -> scorable m2 ->
  enhanced_score_result m1 = Ok sr1 -> enhanced_score_result m2 = Ok sr2 ->
  enhanced_score_result (together md m1 m2) = Ok sr ->
  sr_ranklist sr1 = w :: q1 -> sr_ranklist sr2 = w :: q2 -> exists q, sr_ranklist sr = w :: q.
Proof.
  intros md m1 m2 sr1 sr2 sr w q1 q2 Hc H1 H2 E1 E2 E0 R1 R2.
  pose proof (scorable_together md m1 m2 Hc H1 H2) as H.
  rewrite (ranklist_order m1 sr1 H1 E1) in R1. rewrite (ranklist_order m2 sr2 H2 E2) in R2.
  rewrite (ranklist_order _ sr H E0). change (cands (together md m1 m2)) with (cands m1).
  replace (cands m2) with (cands m1) in R2 by (unfold cands; rewrite Hc; reflexivity).
  apply head_first_max in R1 as (l1&l2&D1&A1&B1). apply head_first_max in R2 as (l1'&l2'&D2&A2&B2).
  rewrite D1 in D2. destruct (split_unique w l1 l2 l1' l2') as [<- <-]; [rewrite <- D1; apply H1|exact D2|].
  apply first_max_head. exists l1, l2. split; [exact D1|].
  split; intros x Hx; rewrite !total_together; [specialize (A1 x Hx); specialize (A2 x Hx)|specialize (B1 x Hx); specialize (B2 x Hx)]; lia.
Qed.
Print Assumptions C69_consistency.

(** Votelines that rate the winner at least as high as everybody else never cost it the victory. *)
Theorem C69_participation : forall md m1 m2 sr1 sr w q, j_candidates m2 = j_candidates m1 ->
  scorable m1 -> scorable m2 ->
  (forall l, In l (j_votelines m2) -> 0 <= v_qty l /\ forall c, In c (cands m1) -> rating_on l c <= rating_on l w) ->
  enhanced_score_result m1 = Ok sr1 -> enhanced_score_result (together md m1 m2) = Ok sr ->
  sr_ranklist sr1 = w :: q -> exists q', sr_ranklist sr = w :: q'.
Proof.
  intros md m1 m2 sr1 sr w q Hc H1 H2 Hl E1 E0 R1.
  pose proof (scorable_together md m1 m2 Hc H1 H2) as H.
  rewrite (ranklist_order m1 sr1 H1 E1) in R1.
  rewrite (ranklist_order _ sr H E0). change (cands (together md m1 m2)) with (cands m1).
  apply head_first_max in R1 as (l1&l2&D1&A1&B1).
  assert (Hle : forall c, In c (cands m1) -> total_score m2 c <= total_score m2 w).
  { intros c Hi. unfold total_score. apply zsum_le. intros l Hll. destruct (Hl l Hll) as [Hq Hr]. specialize (Hr c Hi). nia. }
  apply first_max_head. exists l1, l2. split; [exact D1|].
  split; intros x Hx; rewrite !total_together; (assert (Hx' : In x (cands m1)) by (rewrite D1; apply in_or_app; simpl; auto));
    specialize (Hle x Hx'); [specialize (A1 x Hx)|specialize (B1 x Hx)]; lia.
Qed.
Print Assumptions C69_participation.

(** ** Raising the winner *)
(** Same quantity (not negative), [w] rated at least as high as before, the others at most as high. *)
Definition rates_higher (w : str) (l l' : voteline) : Prop :=
  v_qty l' = v_qty l /\ 0 <= v_qty l /\ rating_on l w <= rating_on l' w /\
  forall c, c <> w -> rating_on l' c <= rating_on l c.

Lemma total_mono (ls ls' : list voteline) c c' :
  Forall2 (fun l l' => v_qty l' = v_qty l /\ 0 <= v_qty l /\ rating_on l c <= rating_on l' c') ls ls' ->
  zsum (map (fun l => v_qty l * rating_on l c) ls) <= zsum (map (fun l => v_qty l * rating_on l c') ls').
Proof. induction 1 as [|l l' ls ls' (H1&H2&H3) _ IH]; simpl; [lia|]. rewrite H1. nia. Qed.

Theorem C69_score_monotone : forall m m' sr sr' w q, scorable m -> scorable m' -> cands m' = cands m ->
  Forall2 (rates_higher w) (j_votelines m) (j_votelines m') ->
  enhanced_score_result m = Ok sr -> enhanced_score_result m' = Ok sr' ->
  sr_ranklist sr = w :: q -> exists q', sr_ranklist sr' = w :: q'.
Proof.
  intros m m' sr sr' w q H H' Hc Hf E0 E0' R.
  rewrite (ranklist_order m sr H E0) in R. rewrite (ranklist_order m' sr' H' E0'), Hc.
  apply head_first_max in R as (l1&l2&D1&A1&B1).
  assert (Up : total_score m w <= total_score m' w).
  { apply total_mono. clear -Hf. induction Hf as [|l l' ls ls' (H1&H2&H3&_) _ IH]; constructor; auto. }
  assert (Dn : forall c, c <> w -> total_score m' c <= total_score m c).
  { intros c n. unfold total_score. clear -Hf n. induction Hf as [|l l' ls ls' (H1&H2&_&H4) _ IH]; simpl; [lia|].
    specialize (H4 c n). rewrite H1. nia. }
  assert (Hn : NoDup (l1 ++ w :: l2)) by (rewrite <- D1; apply H).
  apply first_max_head. exists l1, l2. split; [exact D1|].
  apply NoDup_remove_2 in Hn.
  split; intros x Hx; (assert (n : x <> w) by (intros ->; apply Hn, in_or_app; auto)); specialize (Dn x n);
    [specialize (A1 x Hx)|specialize (B1 x Hx)]; lia.
Qed.
Print Assumptions C69_score_monotone.

(** The top two after raising [w] only. *)
Lemma top_two_raise (k k' : str -> Z) l w a b q :
  NoDup l -> (forall x, x <> w -> k' x = k x) -> k w <= k' w ->
  sort_desc k l = a :: b :: q -> (w = a \/ w = b) ->
  exists a' b' q', sort_desc k' l = a' :: b' :: q' /\
    (w = a' \/ w = b') /\ (if str_eqb w a' then b' else a') = (if str_eqb w a then b else a).
Proof.
  intros Hn Hk Hw E0 Hab.
  destruct (Z.eq_dec (k' w) (k w)) as [Eq|Ne].
  { exists a, b, q. split; [|auto]. rewrite <- E0. apply sort_desc_ext. intros x _.
    destruct (str_eqb_spec x w) as [->|n]; [exact Eq|apply Hk; exact n]. }
  assert (P : Permutation (sort_desc k l) l) by apply sort_desc_perm.
  assert (P' : Permutation (sort_desc k' l) l) by apply sort_desc_perm.
  set (p := fun x => negb (str_eqb w x)).
  assert (F : filter p (sort_desc k' l) = filter p (sort_desc k l)).
  { rewrite !sort_desc_filter. apply sort_desc_ext. intros x Hx. apply filter_In in Hx as [_ Hx]. unfold p in Hx.
    apply negb_true_iff, str_eqb_neq in Hx. apply Hk. congruence. }
  assert (Hn0 : NoDup (sort_desc k l)) by (apply (Permutation_NoDup (Permutation_sym P)); exact Hn).
  assert (Hn1 : NoDup (sort_desc k' l)) by (apply (Permutation_NoDup (Permutation_sym P')); exact Hn).
  assert (Hin : In w (sort_desc k' l)).
  { apply (Permutation_in _ (Permutation_sym P')), (Permutation_in _ P). rewrite E0. destruct Hab as [<-|<-]; simpl; auto. }
  pose proof (sort_desc_sorted k l) as S0. pose proof (sort_desc_sorted k' l) as S1.
  rewrite E0 in *.
  assert (Fid : forall r, ~ In w r -> filter p r = r).
  { induction r as [|x r IH]; intro Hx; simpl; [reflexivity|]. unfold p at 1.
    destruct (str_eqb_spec w x) as [->|n]; [exfalso; apply Hx; left; reflexivity|]. cbn [negb].
    rewrite IH; [reflexivity|]. intro; apply Hx; right; assumption. }
  assert (Pw : p w = false) by (unfold p; rewrite str_eqb_refl; reflexivity).
  assert (Pn : forall x, x <> w -> p x = true) by (intros x n; unfold p; rewrite (proj2 (str_eqb_neq w x)); [reflexivity|congruence]).
  inversion Hn0 as [|? ? Ha Hn0']; subst. inversion Hn0' as [|? ? Hb _]; subst.
  inversion S0 as [|? ? S0' Sa]; subst. inversion S0' as [|? ? _ Sb]; subst. rewrite Forall_forall in Sa, Sb.
  (* the elements other than w, in order: o :: q *)
  set (o := if str_eqb w a then b else a).
  assert (Fo : filter p (a :: b :: q) = o :: q).
  { unfold o. destruct Hab as [<-|<-].
    - rewrite str_eqb_refl. cbn [filter]. rewrite Pw, (Pn b) by (intros ->; apply Ha; left; reflexivity).
      rewrite Fid; [reflexivity|]. intro H. apply Ha; right; exact H.
    - assert (n : a <> w) by (intros ->; apply Ha; left; reflexivity). rewrite (proj2 (str_eqb_neq w a)) by congruence.
      cbn [filter]. rewrite Pw, (Pn a n), Fid by exact Hb. reflexivity. }
  rewrite Fo in F.
  destruct (sort_desc k' l) as [|x r] eqn:E1; [destruct Hin|].
  inversion S1 as [|? ? S1' Sx]; subst. rewrite Forall_forall in Sx. inversion Hn1 as [|? ? Hx Hn1']; subst.
  destruct (str_eqb_spec w x) as [<-|n].
  - (* w first *)
    cbn [filter] in F. rewrite Pw, Fid in F by exact Hx. subst r. exists w, o, q. rewrite str_eqb_refl. auto.
  - cbn [filter] in F. rewrite (Pn x) in F by congruence. injection F as -> F.
    destruct Hin as [->|Hin]; [congruence|].
    destruct r as [|y r]; [destruct Hin|]. destruct (str_eqb_spec w y) as [<-|n'].
    + exists o, w, r. rewrite (proj2 (str_eqb_neq w o)) by exact n. auto.
    + exfalso. cbn [filter] in F. rewrite (Pn y) in F by congruence.
      destruct Hin as [->|Hin]; [congruence|].
      assert (Hy : k' w <= k' y) by (inversion S1' as [|? ? _ Sy]; subst; rewrite Forall_forall in Sy; apply Sy; exact Hin).
      rewrite (Hk y) in Hy by congruence.
      assert (Hyq : In y q) by (rewrite <- F; left; reflexivity).
      assert (k y <= k w).
      { destruct Hab as [<-|<-]; [apply Sa; right; exact Hyq|apply Sb; exact Hyq]. }
      lia.
Qed.

(** [w] is the finalist with strictly more votes in the STAR runoff. *)
Definition star_wins (st : starres) (w : str) : Prop :=
  (st_fin1 st = w /\ st_fin2votes st < st_fin1votes st) \/
  (st_fin2 st = w /\ st_fin1votes st < st_fin2votes st).

(** The same quantity (not negative); the ratings of the others untouched and [w] rated at least as high;
    preferences between others untouched and [w] only rising. *)
Definition promotes (w : str) (l l' : voteline) : Prop :=
  raises w l l' /\ 0 <= v_qty l /\ rating_on l w <= rating_on l' w /\
  forall c, c <> w -> rating_on l' c = rating_on l c.

Lemma star_parts m bc st : scorable m -> tallyable m ->
  dget k_ballotcount (j_metadata m) = Some (JInt bc) -> STAR_result m = Ok st ->
  exists a b q, sort_desc (total_score m) (cands m) = a :: b :: q /\ st_fin1 st = a /\ st_fin2 st = b /\
    In a (cands m) /\ In b (cands m) /\
    st_fin1votes st = votes_over m a b /\ st_fin2votes st = votes_over m b a /\
    st_winner st = (if votes_over m a b >? votes_over m b a then cand_name m a
        else if votes_over m b a >? votes_over m a b then cand_name m b
        else u "tie " ++ cand_name m a ++ u " and " ++ cand_name m b).
Proof.
  intros Hs Ht Hb E0.
  assert (P : Permutation (score_order m) (cands m)) by apply sort_desc_perm.
  destruct (score_order m) as [|f1 [|f2 rest]] eqn:Ho.
  1,2: destruct (C12_star_total m bc Hs Ht Hb) as [_ X]; rewrite X in E0; [discriminate|rewrite <- (Permutation_length P); cbn; lia].
  rewrite (star_ok m bc f1 f2 rest Hs Ht Hb Ho) in E0. apply ok_inj in E0. subst st.
  exists f1, f2, rest. split; [exact Ho|].
  split; [reflexivity|]. split; [reflexivity|].
  split; [apply (Permutation_in _ P); left; reflexivity|].
  split; [apply (Permutation_in _ P); right; left; reflexivity|].
  split; [reflexivity|]. split; [reflexivity|]. reflexivity.
Qed.

(** Promoting the STAR winner keeps it the STAR winner, against the same other finalist. *)
Theorem C69_star_monotone : forall m m' bc bc' st st' w, scorable m -> tallyable m -> scorable m' -> tallyable m' ->
  j_candidates m' = j_candidates m -> Forall2 (promotes w) (j_votelines m) (j_votelines m') ->
  dget k_ballotcount (j_metadata m) = Some (JInt bc) -> dget k_ballotcount (j_metadata m') = Some (JInt bc') ->
  STAR_result m = Ok st -> STAR_result m' = Ok st' -> star_wins st w ->
  star_wins st' w /\ st_winner st' = st_winner st /\
  (forall c, In c [st_fin1 st'; st_fin2 st'] <-> In c [st_fin1 st; st_fin2 st]).
Proof.
  intros m m' bc bc' st st' w Hs Ht Hs' Ht' Hc Hf Hb Hb' E0 E0' W.
  destruct (star_parts m bc st Hs Ht Hb E0) as (a&b&q&So&F1&F2&Ha&Hbb&V1&V2&Wi).
  destruct (star_parts m' bc' st' Hs' Ht' Hb' E0') as (a'&b'&q'&So'&F1'&F2'&Ha'&Hbb'&V1'&V2'&Wi').
  assert (Hcs : cands m' = cands m) by (unfold cands; rewrite Hc; reflexivity). rewrite Hcs in So'.
  assert (Hab : w = a \/ w = b) by (destruct W as [[<- _]|[<- _]]; auto).
  assert (Tw : total_score m w <= total_score m' w).
  { apply total_mono. clear -Hf. induction Hf as [|l l' ls ls' (H1&H2&H3&_) _ IH]; constructor; auto. destruct H1; auto. }
  assert (To : forall x, x <> w -> total_score m' x = total_score m x).
  { intros x n. unfold total_score. clear -Hf n. induction Hf as [|l l' ls ls' (H1&_&_&H4) _ IH]; simpl; [reflexivity|].
    destruct H1 as [H1 _]. rewrite H1, (H4 x n), IH. reflexivity. }
  destruct (top_two_raise (total_score m) (total_score m') (cands m) w a b q (proj1 Hs) To Tw So Hab)
    as (a2&b2&q2&So2&Hab2&Other). rewrite So' in So2. injection So2 as <- <- <-.
  assert (Hr : Forall2 (raises w) (j_votelines m) (j_votelines m')).
  { clear -Hf. induction Hf as [|l l' ls ls' (H1&_) _ IH]; constructor; assumption. }
  assert (Hq : forall l, In l (j_votelines m) -> 0 <= v_qty l).
  { clear -Hf. induction Hf as [|l l' ls ls' (_&H2&_) _ IH]; intros x Hx; [destruct Hx|].
    destruct Hx as [<-|Hx]; [exact H2|apply IH; exact Hx]. }
  destruct (raises_votes m m' w Hr Hq) as (R1&R2&_).
  assert (Nab : a <> b).
  { pose proof (sort_desc_perm (total_score m) (cands m)) as P. rewrite So in P.
    assert (Hn : NoDup (a :: b :: q)) by (apply (Permutation_NoDup (Permutation_sym P)); apply Hs).
    inversion Hn as [|? ? Hx _]; subst. intro Eab. apply Hx; left; congruence. }
  assert (Nab' : a' <> b').
  { pose proof (sort_desc_perm (total_score m') (cands m)) as P. rewrite So' in P.
    assert (Hn : NoDup (a' :: b' :: q')) by (apply (Permutation_NoDup (Permutation_sym P)); apply Hs).
    inversion Hn as [|? ? Hx _]; subst. intro Eab. apply Hx; left; congruence. }
  set (o := if str_eqb w a then b else a) in *.
  assert (Wo : votes_over m o w < votes_over m w o /\ st_winner st = cand_name m w).
  { rewrite Wi. unfold star_wins in W. rewrite V1, V2, F1, F2 in W. unfold o. destruct W as [[<- W]|[<- W]].
    - rewrite str_eqb_refl. split; [exact W|]. destruct (Z.gtb_spec (votes_over m a b) (votes_over m b a)); [reflexivity|lia].
    - rewrite (proj2 (str_eqb_neq b a)) by congruence. split; [exact W|].
      destruct (Z.gtb_spec (votes_over m a b) (votes_over m b a)); [lia|].
      destruct (Z.gtb_spec (votes_over m b a) (votes_over m a b)); [reflexivity|lia]. }
  destruct Wo as [Wo Wn]. specialize (R1 o). specialize (R2 o).
  assert (Cn : cand_name m' w = cand_name m w) by (unfold cand_name; rewrite Hc; reflexivity).
  assert (O0 : forall c, In c [st_fin1 st; st_fin2 st] <-> c = w \/ c = o).
  { intro c. rewrite F1, F2. unfold o. simpl. destruct Hab as [<-|<-].
    - rewrite str_eqb_refl. intuition congruence.
    - rewrite (proj2 (str_eqb_neq w a)) by congruence. intuition congruence. }
  assert (O1 : forall c, In c [st_fin1 st'; st_fin2 st'] <-> c = w \/ c = o).
  { intro c. rewrite F1', F2'. rewrite <- Other. simpl. destruct Hab2 as [<-|<-].
    - rewrite str_eqb_refl. intuition congruence.
    - rewrite (proj2 (str_eqb_neq w a')) by congruence. intuition congruence. }
  split; [|split; [|intro c; rewrite O0, O1; reflexivity]].
  - unfold star_wins. rewrite F1', F2', V1', V2'. destruct Hab2 as [<-|<-].
    + left. split; [reflexivity|]. rewrite str_eqb_refl in Other. rewrite Other. lia.
    + right. split; [reflexivity|]. rewrite (proj2 (str_eqb_neq w a')) in Other by congruence. rewrite Other. lia.
  - rewrite Wn, Wi', Cn || rewrite Wn, Wi'. destruct Hab2 as [<-|<-].
    + rewrite str_eqb_refl in Other. rewrite Other.
      destruct (Z.gtb_spec (votes_over m' w o) (votes_over m' o w)); [exact Cn|lia].
    + rewrite (proj2 (str_eqb_neq w a')) in Other by congruence. rewrite Other.
      destruct (Z.gtb_spec (votes_over m' o w) (votes_over m' w o)); [lia|].
      destruct (Z.gtb_spec (votes_over m' w o) (votes_over m' o w)); [exact Cn|lia].
Qed.
Print Assumptions C69_star_monotone.

(** A candidate who loses head to head to everybody is not the STAR winner. *)
Theorem C69_star_condorcet_loser : forall m bc st c, scorable m -> tallyable m ->
  dget k_ballotcount (j_metadata m) = Some (JInt bc) -> STAR_result m = Ok st -> In c (cands m) ->
  (forall b, In b (cands m) -> b <> c -> votes_over m c b < votes_over m b c) ->
  ~ star_wins st c /\
  ((st_fin1 st = c \/ st_fin2 st = c) -> exists w n, w <> c /\ star_wins st w /\
     dget w (j_candidates m) = Some n /\ st_winner st = n).
Proof.
  intros m bc st c Hs Ht Hb E0 Hc Hl.
  destruct (star_parts m bc st Hs Ht Hb E0) as (a&b&q&So&F1&F2&Ha&Hbb&V1&V2&Wi).
  assert (Nab : a <> b).
  { pose proof (sort_desc_perm (total_score m) (cands m)) as P. rewrite So in P.
    assert (Hn : NoDup (a :: b :: q)) by (apply (Permutation_NoDup (Permutation_sym P)); apply Hs).
    inversion Hn as [|? ? Hx _]; subst. intro Eab. apply Hx; left; congruence. }
  assert (Nm : forall x, In x (cands m) -> dget x (j_candidates m) = Some (cand_name m x)).
  { intros x Hx. unfold cand_name. apply dget_Some_In in Hx as [v Hv]. rewrite Hv. reflexivity. }
  unfold star_wins. rewrite F1, F2, V1, V2. split.
  - intros [[-> W]|[-> W]].
    + specialize (Hl b Hbb). assert (b <> c) by congruence. specialize (Hl H). lia.
    + specialize (Hl a Ha). assert (a <> c) by congruence. specialize (Hl H). lia.
  - intros [->| ->].
    + specialize (Hl b Hbb). assert (n : b <> c) by congruence. specialize (Hl n).
      exists b, (cand_name m b). split; [exact n|]. split; [right; auto|]. split; [apply Nm; exact Hbb|].
      rewrite Wi. destruct (Z.gtb_spec (votes_over m c b) (votes_over m b c)); [lia|].
      destruct (Z.gtb_spec (votes_over m b c) (votes_over m c b)); [reflexivity|lia].
    + specialize (Hl a Ha). assert (n : a <> c) by congruence. specialize (Hl n).
      exists a, (cand_name m a). split; [exact n|]. split; [left; auto|]. split; [apply Nm; exact Ha|].
      rewrite Wi. destruct (Z.gtb_spec (votes_over m a c) (votes_over m c a)); [reflexivity|lia].
Qed.
Print Assumptions C69_star_condorcet_loser.

(** ** The order of the votelines does not matter. *)
Theorem C69_line_order : forall m ls, scorable m -> Permutation (j_votelines m) ls ->
  basic_score_result (with_lines m ls) = basic_score_result m /\
  enhanced_score_result (with_lines m ls) = enhanced_score_result m /\
  (tallyable m -> STAR_result (with_lines m ls) = STAR_result m).
Proof.
  intros m ls H P.
  assert (H' : scorable (with_lines m ls)).
  { split; [apply H|]. intros l Hl. apply (proj2 H l), (Permutation_in _ (Permutation_sym P)), Hl. }
  assert (B : basic_score_result (with_lines m ls) = basic_score_result m).
  { rewrite (basic_score_ok _ H), (basic_score_ok _ H'). f_equal. apply dmap_ext. intros c _.
    f_equal.
    - unfold total_score. cbn [with_lines j_votelines]. apply zsum_perm. apply Permutation_map, Permutation_sym, P.
    - unfold supporters. apply ballots_where_perm. apply Permutation_sym, P. }
  assert (E0 : enhanced_score_result (with_lines m ls) = enhanced_score_result m).
  { unfold enhanced_score_result. rewrite B. reflexivity. }
  split; [exact B|]. split; [exact E0|]. intro T. unfold STAR_result. rewrite E0.
  unfold full_copecount. rewrite (C03_line_order_irrelevant m ls T P). reflexivity.
Qed.
Print Assumptions C69_line_order.

(** ** Renaming the tokens *)
Theorem C69_neutral : forall f m, (forall x y, f x = f y -> x = y) -> scorable m ->
  forall sr, enhanced_score_result m = Ok sr ->
  exists sr', enhanced_score_result (rename_tokens f m) = Ok sr' /\
    sr_ranklist sr' = map f (sr_ranklist sr) /\
    sr_scores sr' = map (fun kv => (f (fst kv), snd kv)) (sr_scores sr) /\
    sr_total_all_scores sr' = sr_total_all_scores sr /\ sr_totalvoters sr' = sr_totalvoters sr.
Proof.
  intros f m Hf H sr E0.
  destruct (dget k_ballotcount (j_metadata m)) as [bc|] eqn:Eb; [|rewrite (enhanced_err m H Eb) in E0; discriminate].
  assert (H' : scorable (rename_tokens f m)).
  { split; [rewrite cands_rename; apply NoDup_map_inj; [exact Hf|apply H]|].
    intros l Hl. cbn [rename_tokens j_votelines] in Hl. apply in_map_iff in Hl as [l0 [<- Hl]].
    destruct (proj2 H l0 Hl) as [[L1 L2] L3].
    assert (Ek : map fst (v_prefs (rename_line f l0)) = map f (map fst (v_prefs l0))).
    { unfold rename_line, with_prefs. cbn [v_prefs]. rewrite !map_map. reflexivity. }
    split; [split|].
    - rewrite Ek. apply NoDup_map_inj; assumption.
    - rewrite Ek, cands_rename. apply incl_map. exact L2.
    - unfold line_rated in *. unfold rename_line, with_prefs. cbn [v_prefs].
      rewrite forallb_forall in *. intros kv Hk. apply in_map_iff in Hk as [kv0 [<- Hk]]. exact (L3 kv0 Hk). }
  assert (Rt : forall l c, rating_on (rename_line f l) (f c) = rating_on l c).
  { intros l c. unfold rating_on, rename_line, with_prefs. cbn [v_prefs]. rewrite (dget_rename f Hf). reflexivity. }
  assert (Ts : forall c, total_score (rename_tokens f m) (f c) = total_score m c).
  { intro c. unfold total_score, rename_tokens. cbn [j_votelines]. rewrite map_map. f_equal. apply map_ext. intro l.
    rewrite Rt. reflexivity. }
  assert (Su : forall c, supporters (rename_tokens f m) (f c) = supporters m c).
  { intro c. unfold supporters, ballots_where, rename_tokens. cbn [j_votelines]. rewrite map_map. f_equal. apply map_ext.
    intro l. rewrite Rt. reflexivity. }
  rewrite (enhanced_ok m bc H Eb) in E0. apply ok_inj in E0. subst sr.
  rewrite (enhanced_ok (rename_tokens f m) bc H' Eb). eexists. split; [reflexivity|].
  cbn [sr_ranklist sr_scores sr_total_all_scores sr_totalvoters].
  assert (Tl : map (total_score (rename_tokens f m)) (cands (rename_tokens f m)) = map (total_score m) (cands m)).
  { rewrite cands_rename, map_map. apply map_ext. exact Ts. }
  split; [|split; [|split; [rewrite Tl; reflexivity|reflexivity]]].
  - unfold score_order, sort_desc. rewrite cands_rename.
    symmetry. rewrite (sort_by_map f _ (fun x y => total_score (rename_tokens f m) y <=? total_score (rename_tokens f m) x));
      [reflexivity|]. intros x y. rewrite !Ts. reflexivity.
  - unfold dmap. rewrite cands_rename, !map_map. apply map_ext. intro c. cbn [fst snd]. f_equal.
    unfold final_info. rewrite Ts, Su, Tl. f_equal. unfold cand_name, rename_tokens. cbn [j_candidates].
    rewrite (dget_rename f Hf). reflexivity.
Qed.
Print Assumptions C69_neutral.

(** ** Samples *)
Definition bc12 : dict json := [(k_ballotcount, JInt 12)].
Definition star_promoted : jabmod := Jabmod bc12 [(A, u "Ann"); (B, u "Bob"); (C, u "Cy"); (D, u "Di")]
  [ vl 5 [(A, rated 2 (RInt 5)); (B, rated 1 (RInt 6)); (C, rated 3 (RInt 0))];
    vl 4 [(B, rated 1 (RInt 4)); (C, rated 2 (RInt 1))];
    vl 3 [(C, rated 1 (RInt 2)); (D, ranked 3); (B, rated 2 (RInt 1))] ].
Definition star_before : jabmod := Jabmod bc12 [(A, u "Ann"); (B, u "Bob"); (C, u "Cy"); (D, u "Di")]
  [ vl 5 [(A, rated 1 (RInt 5)); (B, rated 2 (RStr (u "3"))); (C, rated 3 (RInt 0))];
    vl 4 [(B, rated 1 (RInt 4)); (C, rated 2 (RInt 1))];
    vl 3 [(B, rated 2 (RInt 0)); (C, rated 1 (RInt 2)); (D, ranked 2)] ].

Lemma rating_unlisted l c : ~ In c (map fst (v_prefs l)) -> rating_on l c = 0.
Proof. intro H. unfold rating_on. rewrite (proj2 (dget_None c (v_prefs l)) H). reflexivity. Qed.

Lemma same_ratings w l l' cs : incl (map fst (v_prefs l)) cs -> incl (map fst (v_prefs l')) cs ->
  forallb (fun c => str_eqb c w || (rating_on l' c =? rating_on l c)) cs = true ->
  forall c, c <> w -> rating_on l' c = rating_on l c.
Proof.
  intros H1 H2 H c n. destruct (memb c cs) eqn:Em.
  - rewrite forallb_forall in H. apply memb_In in Em. specialize (H c Em). rewrite (proj2 (str_eqb_neq _ _) n) in H.
    apply Z.eqb_eq. exact H.
  - apply memb_nIn in Em. rewrite !rating_unlisted; auto.
Qed.

Local Ltac promotes_tac :=
  split; [apply (raises_on_spec [A; B; C; D; E] E);
    [intros x Hx; simpl in Hx |- *; tauto|intros x Hx; simpl in Hx |- *; tauto|simpl; tauto|discriminate|simpl; tauto
    |simpl; intuition discriminate|simpl; intuition discriminate|vm_compute; reflexivity]
  |split; [vm_compute; discriminate|split; [vm_compute; discriminate|
     apply (same_ratings _ _ _ [A; B; C; D]); [intros x Hx; simpl in Hx |- *; tauto|intros x Hx; simpl in Hx |- *; tauto|vm_compute; reflexivity]]]].

Local Ltac scorable_tac :=
  split; [nodup|]; intros l Hl; simpl in Hl; destruct Hl as [<-|[<-|[<-|[]]]];
  (split; [split; [nodup|intros x Hx; simpl in *; intuition (subst; auto)]|reflexivity]).

Example C69_star_monotone_nonvacuous :
  scorable star_before /\ tallyable star_before /\ scorable star_promoted /\ tallyable star_promoted /\
  Forall2 (promotes B) (j_votelines star_before) (j_votelines star_promoted) /\
  (exists st, STAR_result star_before = Ok st /\ star_wins st B /\ st_fin1votes st = 7 /\ st_fin2votes st = 5) /\
  (exists st, STAR_result star_promoted = Ok st /\ st_winner st = u "Bob" /\ st_fin1votes st = 12 /\ st_fin2votes st = 0).
Proof.
  split; [scorable_tac|]. split; [split; [nodup|intros l Hl; simpl in Hl; intuition (subst; reflexivity)]|].
  split; [scorable_tac|]. split; [split; [nodup|intros l Hl; simpl in Hl; intuition (subst; reflexivity)]|].
  split; [repeat (apply Forall2_cons; [promotes_tac|]); constructor|].
  split; eexists; (split; [vm_compute; reflexivity|]).
  - split; [left; vm_compute; split; reflexivity|split; reflexivity].
  - repeat split; reflexivity.
Qed.

Example C69_together_nonvacuous :
  exists s1 s2 s, enhanced_score_result star_sample = Ok s1 /\ enhanced_score_result star_promoted = Ok s2 /\
    enhanced_score_result (together bc12 star_sample star_promoted) = Ok s /\
    sr_ranklist s1 = [B; A; C; D] /\ sr_ranklist s2 = [B; A; C; D] /\ sr_ranklist s = [B; A; C; D] /\
    info_score (sr_scores s1) B = 31 /\ info_score (sr_scores s2) B = 49 /\ info_score (sr_scores s) B = 80.
Proof.
  do 3 eexists. do 3 (split; [vm_compute; reflexivity|]).
  do 5 (split; [vm_compute; reflexivity|]). vm_compute; reflexivity.
Qed.
