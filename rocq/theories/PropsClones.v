(** * PropsClones: C93, similar candidates do not split the vote in an instant runoff *)

From Coq Require Import Lia Permutation.
From Verif Require Import PyBase PyFacts Jabmod PairwiseModel Spec PairwiseFacts IrvModel IrvFacts IrvStrict IrvTrace IrvCriteria IrvMonotone PropsPairwise PropsIrv PropsWithdraw.
Local Open Scope Z_scope.

(** ** Specification *)
(** On every ballot the candidates of [K] stand together: all of them are listed or none, and nobody else is ranked between two of them. *)
Definition clones (K : list str) (l : voteline) : Prop :=
  forall x y, In x K -> In y K -> lists l x = lists l y /\ forall c, ~ In c K -> prefers l x c = prefers l y c /\ prefers l c x = prefers l c y.
(** The election in which [k] alone stands for them *)
Definition merged (K : list str) (k : str) (m : jabmod) : jabmod := only (filter (fun c => str_eqb c k || negb (memb c K)) (cands m)) m.

(** ** A majority decides *)
Lemma majority_trace o n pa cs ls w rs ms v : trace o n pa cs ls w rs ms -> In v cs -> (forall c, In c cs -> 0 <= tally ls c) ->
  zsum (map (tally ls) cs) < 2 * tally ls v -> w = [v].
Proof.
  intros T Hv Hp Hm.
  assert (H : NoDup cs -> forall mn mx pen, round_numbers cs ls mn mx pen -> filter (fun c => tally ls c =? mx) cs = [v] /\ decided cs ls mn mx).
  { intros Hn mn mx pen R. destruct (rn_max _ _ _ _ _ R) as [(a&Ha&Ea) Hg]. pose proof (Hg v Hv) as Hgv.
    assert (Hu : forall c, In c cs -> tally ls c = mx -> c = v).
    { intros c Hc Ec. destruct (str_eq_dec c v) as [|Hcv]; [assumption|exfalso].
      pose proof (group_plus (tally ls) [v] cs c Hn Hc ltac:(intros [X|[]]; congruence) Hp) as G.
      assert (E : zsum (map (tally ls) (filter (fun c => memb c [v]) cs)) = tally ls v).
      { rewrite (filter_singleton (fun c => memb c [v]) cs v Hn Hv); [cbn; lia|cbn; rewrite str_eqb_refl; reflexivity|].
        intros c' _ Hc'. apply memb_In in Hc'. destruct Hc' as [->|[]]. reflexivity. }
      lia. }
    split; [|right; lia]. apply filter_singleton; [exact Hn|exact Hv| |intros c Hc Ec; apply Hu; [exact Hc|lia]].
    rewrite <- (Hu a Ha Ea). lia. }
  inversion T as [n2 pa2 cs2 ls2 mn mx pen Hn Hne Hl R Hd|n2 pa2 cs2 ls2 mn mx pen e2 w2 rs2 ms2 Hn Hne Hl R Hd He T2]; subst.
  - apply (H Hn _ _ _ R).
  - exfalso. apply Hd, (H Hn _ _ _ R).
Qed.

(** ** One ballot *)
Section Clones.
  Variables (cs0 : list str) (ls0 : list voteline) (K : list str) (k : str).
  Hypothesis Hq : nonneg_lines ls0.
  Hypothesis HK : forall l, In l ls0 -> clones K l.
  Hypothesis Hk : In k K.

  (** The candidates of the one count and those of the other *)
  Definition stands (cs cs' : list str) : Prop := forall c, In c cs' <-> (In c cs /\ ~ In c K) \/ (c = k /\ exists x, In x cs /\ In x K).
  Definition image (c : str) : str := if memb c K then k else c.

  Lemma top_true cs l c : top_choice cs l c = true <-> In c cs /\ lists l c = true /\ forall d, In d cs -> c <> d -> prefers l c d = true.
  Proof.
    unfold top_choice. rewrite !andb_true_iff, memb_In, forallb_forall. split.
    - intros [[H1 H2] H3]. repeat split; auto. intros d Hd Hn. specialize (H3 d Hd). apply orb_true_iff in H3 as [H3|H3]; [|exact H3].
      apply str_eqb_eq in H3. contradiction.
    - intros (H1&H2&H3). repeat split; auto. intros d Hd. apply orb_true_iff. destruct (str_eqb_spec c d) as [|Hn]; [left; reflexivity|right; auto].
  Qed.
  Lemma top_other cs cs' l c : stands cs cs' -> In l ls0 -> ~ In c K -> top_choice cs' l c = top_choice cs l c.
  Proof.
    intros HS Hl Hc. apply eq_true_iff_eq. rewrite !top_true. pose proof (HK l Hl) as Hcl. split; intros (H1&H2&H3).
    - apply HS in H1. destruct H1 as [[H1 _]|[-> _]]; [|contradiction]. repeat split; auto. intros d Hd Hn. destruct (memb d K) eqn:Ed.
      + apply memb_In in Ed. rewrite (proj2 (proj2 (Hcl d k Ed Hk) c Hc)). apply H3; [apply HS; right; split; [reflexivity|exists d; auto]|intros ->; contradiction].
      + apply memb_nIn in Ed. apply H3; [apply HS; auto|exact Hn].
    - repeat split; auto; [apply HS; auto|]. intros d Hd Hn. apply HS in Hd. destruct Hd as [[Hd _]|[-> (x&Hx&HxK)]]; [auto|].
      rewrite (proj2 (proj2 (Hcl k x Hk HxK) c Hc)). apply H3; [exact Hx|intros ->; contradiction].
  Qed.
  Lemma top_clone cs cs' l x : stands cs cs' -> In l ls0 -> In x K -> top_choice cs l x = true -> top_choice cs' l k = true.
  Proof.
    intros HS Hl Hx. rewrite !top_true. pose proof (HK l Hl) as Hcl. intros (H1&H2&H3). split; [apply HS; right; split; [reflexivity|exists x; auto]|].
    split; [rewrite (proj1 (Hcl k x Hk Hx)); exact H2|]. intros d Hd Hn. apply HS in Hd. destruct Hd as [[Hd Hdk]|[-> _]]; [|congruence].
    rewrite (proj1 (proj2 (Hcl k x Hk Hx) d Hdk)). apply H3; [exact Hd|intros ->; contradiction].
  Qed.
  Lemma top_last_clone cs cs' l x : stands cs cs' -> In l ls0 -> In x K -> In x cs -> (forall y, In y cs -> In y K -> y = x) -> top_choice cs' l k = top_choice cs l x.
  Proof.
    intros HS Hl Hx Hxc Hu. apply eq_true_iff_eq. split; [|apply top_clone; assumption]. rewrite !top_true. pose proof (HK l Hl) as Hcl.
    intros (H1&H2&H3). split; [exact Hxc|]. split; [rewrite (proj1 (Hcl x k Hx Hk)); exact H2|]. intros d Hd Hn. destruct (memb d K) eqn:Ed.
    - apply memb_In in Ed. destruct (Hn (eq_sym (Hu d Hd Ed))).
    - apply memb_nIn in Ed. rewrite (proj1 (proj2 (Hcl x k Hx Hk) d Ed)). apply H3; [apply HS; auto|intros ->; contradiction].
  Qed.
  Lemma nobody_same cs cs' l : stands cs cs' -> In l ls0 -> lists_nobody cs' l = lists_nobody cs l.
  Proof.
    intros HS Hl. pose proof (HK l Hl) as Hcl. apply eq_true_iff_eq. unfold lists_nobody. rewrite !forallb_forall. split; intros H c Hc.
    - destruct (memb c K) eqn:Ec.
      + apply memb_In in Ec. rewrite (proj1 (Hcl c k Ec Hk)). apply H, HS. right. split; [reflexivity|exists c; auto].
      + apply memb_nIn in Ec. apply H, HS. auto.
    - apply HS in Hc. destruct Hc as [[Hc _]|[-> (x&Hx&HxK)]]; [auto|]. rewrite (proj1 (Hcl k x Hk HxK)). auto.
  Qed.

  (** ** One round *)
  Lemma state_total gone cs ls : strict_state cs0 ls0 gone cs ls -> lines_inv cs ls -> NoDup cs ->
    zsum (map (tally ls) cs) = zsum (map v_qty ls0) - ballots_where (lists_nobody cs) ls0.
  Proof.
    intros Hs Hl Hn. pose proof (tally_split cs ls Hn Hl) as E. destruct (strict_tally _ _ _ _ _ Hs Hl) as (Ep&_&_&Ex).
    rewrite Ep, Ex in E. destruct Hs as (_&_&_&Els). assert (Ev : map v_qty ls = map v_qty ls0) by (rewrite Els; apply without_qty). rewrite Ev in E. lia.
  Qed.
  Lemma two_rounds gone cs ls gone' cs' ls' : strict_state cs0 ls0 gone cs ls -> lines_inv cs ls -> NoDup cs ->
    strict_state cs0 ls0 gone' cs' ls' -> lines_inv cs' ls' -> NoDup cs' -> stands cs cs' ->
    zsum (map (tally ls') cs') = zsum (map (tally ls) cs) /\ (forall c, ~ In c K -> tally ls' c = tally ls c) /\ (forall x, In x K -> tally ls x <= tally ls' k) /\
    (forall x, In x K -> In x cs -> (forall y, In y cs -> In y K -> y = x) -> tally ls' k = tally ls x) /\ (forall c, 0 <= tally ls c) /\ (forall c, 0 <= tally ls' c).
  Proof.
    intros Hs Hl Hn Hs' Hl' Hn' HS. destruct (strict_tally _ _ _ _ _ Hs Hl) as (_&_&Et&_). destruct (strict_tally _ _ _ _ _ Hs' Hl') as (_&_&Et'&_).
    split; [|split; [|split; [|split; [|split]]]].
    - rewrite (state_total gone cs ls Hs Hl Hn), (state_total gone' cs' ls' Hs' Hl' Hn'). f_equal. apply ballots_where_ext. intros l Hin. apply nobody_same; assumption.
    - intros c Hc. rewrite Et, Et'. apply ballots_where_ext. intros l Hin. apply top_other; assumption.
    - intros x Hx. rewrite Et, Et'. apply ballots_where_le; [exact Hq|]. intros l Hin. apply top_clone; assumption.
    - intros x Hx Hxc Hu. rewrite Et, Et'. apply ballots_where_ext. intros l Hin. apply top_last_clone; assumption.
    - intro c. rewrite Et. apply ballots_where_nonneg, Hq.
    - intro c. rewrite Et'. apply ballots_where_nonneg, Hq.
  Qed.
  Lemma fewer_candidates gone cs ls gone' cs' ls' v : strict_state cs0 ls0 gone cs ls -> lines_inv cs ls -> NoDup cs ->
    strict_state cs0 ls0 gone' cs' ls' -> lines_inv cs' ls' -> NoDup cs' -> incl cs' cs -> In v cs' ->
    tally ls v <= tally ls' v /\ zsum (map (tally ls') cs') <= zsum (map (tally ls) cs).
  Proof.
    intros Hs Hl Hn Hs' Hl' Hn' Hi Hv. destruct (strict_tally _ _ _ _ _ Hs Hl) as (_&_&Et&_). destruct (strict_tally _ _ _ _ _ Hs' Hl') as (_&_&Et'&_). split.
    - rewrite Et, Et'. apply ballots_where_le; [exact Hq|]. intros l _. rewrite !top_true. intros (H1&H2&H3). auto.
    - rewrite (state_total gone cs ls Hs Hl Hn), (state_total gone' cs' ls' Hs' Hl' Hn').
      assert (ballots_where (lists_nobody cs) ls0 <= ballots_where (lists_nobody cs') ls0); [|lia].
      apply ballots_where_le; [exact Hq|]. intros l _. unfold lists_nobody. rewrite !forallb_forall. auto.
  Qed.

  (** ** The whole count *)
  Lemma clone_trace o o' n pa cs ls w rs ms : valid_oracle o -> valid_oracle o' -> trace o n pa cs ls [w] rs ms ->
    (forall j rm, nth_error ms j = Some rm -> (S j < length ms)%nat -> im_bottomtie rm = None) ->
    forall gone gone' n' pa' cs' ls' w' rs' ms', strict_state cs0 ls0 gone cs ls -> strict_state cs0 ls0 gone' cs' ls' -> stands cs cs' ->
    trace o' n' pa' cs' ls' w' rs' ms' -> w' = [image w].
  Proof.
    intros Ho Ho' T. remember [w] as W eqn:EW.
    induction T as [n pa cs ls mn mx pen Hn Hne Hl R Hd|n pa cs ls mn mx pen e W rs ms Hn Hne Hl R Hd He T IH];
      intros Hr gone gone' n' pa' cs' ls' w' rs' ms' Hs Hs' HS T';
      assert (Hc' : NoDup cs' /\ cs' <> [] /\ lines_inv cs' ls') by (inversion T'; auto); destruct Hc' as (Hn'&Hne'&Hl');
      destruct (two_rounds gone cs ls gone' cs' ls' Hs Hl Hn Hs' Hl' Hn' HS) as (Ez&Eo&Ek&Eu&Hp&Hp').
    - assert (Hi : In w (filter (fun c => tally ls c =? mx) cs)) by (rewrite EW; left; reflexivity). apply filter_In in Hi as [Hwcs Hwmx]. apply Z.eqb_eq in Hwmx.
      assert (Hwi : In (image w) cs').
      { apply HS. unfold image. destruct (memb w K) eqn:Ew; [right; split; [reflexivity|exists w; split; [exact Hwcs|apply memb_In, Ew]]|left; split; [exact Hwcs|apply memb_nIn, Ew]]. }
      destruct Hd as [Hd|Hd].
      + assert (Hall : forall c, In c cs -> c = w).
        { intros c Hc. assert (H1 := proj2 (rn_min _ _ _ _ _ R) c Hc). assert (H2 := proj2 (rn_max _ _ _ _ _ R) c Hc).
          assert (Hi : In c (filter (fun c => tally ls c =? mx) cs)) by (apply filter_In; split; [exact Hc|lia]). rewrite EW in Hi. destruct Hi as [->|[]]. reflexivity. }
        assert (Hall' : forall c, In c cs' -> c = image w).
        { intros c Hc. apply HS in Hc. unfold image. destruct Hc as [[Hc HcK]|[-> (x&Hx&HxK)]].
          - rewrite <- (Hall c Hc). rewrite (proj2 (memb_nIn _ _) HcK). reflexivity.
          - rewrite <- (Hall x Hx). rewrite (proj2 (memb_In _ _) HxK). reflexivity. }
        destruct (trace_winner _ _ _ _ _ _ _ _ Ho' T') as (W1&W2&W3). destruct w' as [|a [|b r]]; [congruence| |].
        * rewrite (Hall' a); [reflexivity|]. apply W3. left. reflexivity.
        * exfalso. inversion W2 as [|? ? N1 _]; subst. apply N1. left. rewrite (Hall' a), (Hall' b); [reflexivity|apply W3; right; left; reflexivity|apply W3; left; reflexivity].
      + refine (majority_trace _ _ _ _ _ _ _ _ _ T' Hwi (fun c _ => Hp' c) _). rewrite Ez.
        assert (tally ls w <= tally ls' (image w)); [|lia]. unfold image. destruct (memb w K) eqn:Ew; [apply Ek, memb_In, Ew|rewrite Eo; [lia|apply memb_nIn, Ew]].
    - subst W.
      assert (Hlen : (1 < length (mk_meta n cs ls mn mx pen (elim_decision o n (ri_of cs ls mn mx pen)) (all_elim pa (elim_decision o n (ri_of cs ls mn mx pen))) e None :: ms))%nat).
      { destruct (trace_lengths _ _ _ _ _ _ _ _ T) as [L1 L2]. cbn [length]. destruct rs; [congruence|]. cbn [length] in L1. lia. }
      assert (Hnb : ed_bottomtie (elim_decision o n (ri_of cs ls mn mx pen)) = None) by (apply (Hr 0%nat _ eq_refl), Hlen).
      assert (Hr' : forall j rm, nth_error ms j = Some rm -> (S j < length ms)%nat -> im_bottomtie rm = None).
      { intros j rm E L. apply (Hr (S j) rm E). cbn [length]. lia. }
      destruct (elim_spec o n cs ls mn mx pen _ (rn_min _ _ _ _ _ R) eq_refl) as (_&_&Hc). cbv zeta in Hc.
      assert (Hb : filter (fun c => tally ls c =? mn) cs = e /\ length e = 1%nat).
      { destruct Hc as [(H1&E1)|[(H1&H2&E1)|(H1&H2&y&Hy&E1)]]; rewrite E1 in Hnb, He; cbn in Hnb, He; try discriminate. rewrite He. split; [reflexivity|exact H1]. }
      destruct Hb as [Hb Hlen1]. destruct e as [|c0 [|c1 r]]; cbn [length] in Hlen1; try lia. clear Hlen1.
      assert (Hc0 : In c0 cs /\ tally ls c0 = mn).
      { assert (Hi : In c0 (filter (fun c => tally ls c =? mn) cs)) by (rewrite Hb; left; reflexivity). apply filter_In in Hi as [Hi Hi2]. split; [exact Hi|lia]. }
      destruct Hc0 as [Hc0 Ec0].
      assert (Hmin : forall c, In c cs -> c <> c0 -> mn < tally ls c).
      { intros c Hcc Hcn. assert (H1 := proj2 (rn_min _ _ _ _ _ R) c Hcc). destruct (Z.eq_dec (tally ls c) mn) as [Ec|]; [exfalso|lia].
        assert (Hi : In c (filter (fun c => tally ls c =? mn) cs)) by (apply filter_In; split; [exact Hcc|lia]). rewrite Hb in Hi. destruct Hi as [->|[]]. congruence. }
      assert (Hnext : strict_state cs0 ls0 (gone ++ [c0]) (o_order o n (set_minus cs [c0])) (map (without [c0]) (pruned ls))) by (apply (strict_next cs0 ls0 gone cs ls); auto).
      assert (Hin : forall c, In c (o_order o n (set_minus cs [c0])) <-> In c cs /\ c <> c0).
      { intro c. split.
        - intro H. apply (Permutation_in _ (Ho n _)), set_minus_In in H as [H1 H2]. split; [exact H1|]. intros ->. apply H2. left. reflexivity.
        - intros [H1 H2]. apply (Permutation_in _ (Permutation_sym (Ho n _))), set_minus_In. split; [exact H1|]. intros [X|[]]. congruence. }
      assert (Hother : In c0 K -> (exists x, In x cs /\ In x K /\ x <> c0) \/ (forall y, In y cs -> In y K -> y = c0)).
      { intros _. destruct (filter (fun x => memb x K && negb (str_eqb x c0)) cs) as [|x r] eqn:Ef.
        - right. intros y Hy HyK. destruct (str_eq_dec y c0) as [|Hyn]; [assumption|exfalso].
          assert (Hi : In y (filter (fun x => memb x K && negb (str_eqb x c0)) cs)).
          { apply filter_In. split; [exact Hy|]. rewrite (proj2 (memb_In _ _) HyK), (proj2 (str_eqb_neq _ _) Hyn). reflexivity. }
          rewrite Ef in Hi. destruct Hi.
        - left. exists x. assert (Hi : In x (filter (fun x => memb x K && negb (str_eqb x c0)) cs)) by (rewrite Ef; left; reflexivity).
          apply filter_In in Hi as [Hi1 Hi2]. apply andb_true_iff in Hi2 as [Hi2 Hi3]. split; [exact Hi1|]. split; [apply memb_In, Hi2|]. apply str_eqb_neq. destruct (str_eqb x c0); [discriminate|reflexivity]. }
      assert (Hcase : (In c0 K /\ exists x, In x cs /\ In x K /\ x <> c0) \/ (In c0 K -> forall y, In y cs -> In y K -> y = c0)).
      { destruct (memb c0 K) eqn:E0; [apply memb_In in E0; destruct (Hother E0) as [H|H]; [left; auto|right; auto]|right; intro X; apply memb_nIn in E0; contradiction]. }
      destruct Hcase as [(Hc0K&x&Hx&HxK&Hxc)|Hlast].
      + (* one of several clones goes: nothing happens in the other count *)
        refine (IH eq_refl Hr' (gone ++ [c0]) gone' n' pa' cs' ls' w' rs' ms' Hnext Hs' _ T'). intro c. rewrite (HS c), Hin. split.
        * intros [[H1 H2]|[H1 _]]; [left; repeat split; auto; intros ->; contradiction|right; split; [exact H1|]]. exists x. rewrite Hin. auto.
        * intros [[[H1 _] H2]|[H1 (y&Hy&HyK)]]; [left; auto|right; split; [exact H1|]]. apply Hin in Hy as [Hy _]. exists y. auto.
      + set (f0 := image c0).
        assert (Hf0 : In f0 cs').
        { apply HS. unfold f0, image. destruct (memb c0 K) eqn:E0; [right; split; [reflexivity|exists c0; split; [exact Hc0|apply memb_In, E0]]|left; split; [exact Hc0|apply memb_nIn, E0]]. }
        assert (Ef0 : tally ls' f0 = mn).
        { unfold f0, image. destruct (memb c0 K) eqn:E0; [apply memb_In in E0; rewrite (Eu c0 E0 Hc0 (Hlast E0)); exact Ec0|apply memb_nIn in E0; rewrite (Eo c0 E0); exact Ec0]. }
        assert (Hmin' : forall c, In c cs' -> c <> f0 -> mn < tally ls' c).
        { intros c Hcc Hcn. apply HS in Hcc. destruct Hcc as [[Hcc HcK]|[-> (x&Hx&HxK)]].
          - rewrite (Eo c HcK). apply Hmin; [exact Hcc|]. intros ->. apply Hcn. unfold f0, image. rewrite (proj2 (memb_nIn _ _) HcK). reflexivity.
          - assert (Hxc : x <> c0). { intros ->. apply Hcn. unfold f0, image. rewrite (proj2 (memb_In _ _) HxK). reflexivity. }
            specialize (Hmin x Hx Hxc). specialize (Ek x HxK). lia. }
        assert (Hex : exists b, In b cs' /\ b <> f0).
        { destruct (rn_max _ _ _ _ _ R) as [(a&Ha&Ea) _].
          assert (Hac : a <> c0). { intros ->. apply Hd. left. congruence. }
          exists (image a). split.
          - apply HS. unfold image. destruct (memb a K) eqn:E0; [right; split; [reflexivity|exists a; split; [exact Ha|apply memb_In, E0]]|left; split; [exact Ha|apply memb_nIn, E0]].
          - unfold f0, image. destruct (memb a K) eqn:Ea', (memb c0 K) eqn:E0'.
            + apply memb_In in Ea', E0'. exfalso. apply Hac, (Hlast E0' a Ha Ea').
            + apply memb_nIn in E0'. intro X. apply E0'. rewrite <- X. exact Hk.
            + apply memb_nIn in Ea'. intro X. apply Ea'. rewrite X. exact Hk.
            + exact Hac. }
        assert (Hst : forall cs2, (forall c, In c cs2 <-> In c cs' /\ c <> f0) -> stands (o_order o n (set_minus cs [c0])) cs2).
        { intros cs2 H2 c. rewrite (H2 c), (HS c), Hin. unfold f0, image. split.
          - intros [[[H3 H4]|[H3 (x&Hx&HxK)]] H5].
            + left. split; [split; [exact H3|]|exact H4]. intros ->. apply H5. rewrite (proj2 (memb_nIn _ _) H4). reflexivity.
            + right. split; [exact H3|]. exists x. rewrite Hin. split; [split; [exact Hx|]|exact HxK]. intros ->. apply H5. rewrite (proj2 (memb_In _ _) HxK). exact H3.
          - intros [[[H3 H4] H5]|[H3 (x&Hx&HxK)]].
            + split; [left; auto|]. destruct (memb c0 K); [intros ->; contradiction|exact H4].
            + apply Hin in Hx as [Hx Hxc]. split; [right; split; [exact H3|exists x; auto]|]. destruct (memb c0 K) eqn:E0.
              * apply memb_In in E0. destruct (Hxc (Hlast E0 x Hx HxK)).
              * apply memb_nIn in E0. intros X. apply E0. rewrite <- X, H3. exact Hk. }
        inversion T' as [n2 pa2 cs2 ls2 mn2 mx2 pen2 Hn2 Hne2 Hl2 R2 Hd2|n2 pa2 cs2 ls2 mn2 mx2 pen2 e2 w2 rs2 ms2 Hn2 Hne2 Hl2 R2 Hd2 He2 T2]; subst n2 pa2 cs2 ls2.
        * (* the other count is over: only [k] can have a majority there, and it would keep it *)
          destruct (rn_max _ _ _ _ _ R2) as [(a&Ha&Ea) Hg].
          assert (Hmaj : zsum (map (tally ls') cs') < 2 * tally ls' a).
          { destruct Hd2 as [Hd2|Hd2]; [exfalso|lia]. destruct Hex as (b&Hb1&Hb2). pose proof (Hmin' b Hb1 Hb2). pose proof (Hg b Hb1). pose proof (proj2 (rn_min _ _ _ _ _ R2) f0 Hf0). lia. }
          assert (Haf : a <> f0).
          { intros ->. destruct Hex as (b&Hb1&Hb2). pose proof (Hmin' b Hb1 Hb2). pose proof (Hg b Hb1). lia. }
          assert (Hak : a = k).
          { apply HS in Ha as Ha'. destruct Ha' as [[Ha1 Ha2]|[-> _]]; [exfalso|reflexivity]. apply Hd. right. rewrite <- Ez. rewrite (Eo a Ha2) in Hmaj.
            pose proof (proj2 (rn_max _ _ _ _ _ R) a Ha1). lia. }
          subst a. pose proof (majority_trace _ _ _ _ _ _ _ _ _ T' Ha (fun c _ => Hp' c) Hmaj) as Ew'. match goal with H : _ = w' |- _ => rewrite <- H in Ew' end. rewrite Ew'. clear Ew'.
          destruct (strict_pruned cs' ls' Hl') as [Epr _]. { intros l Hll. destruct Hs' as (_&Q1&_&Q2). rewrite Q2 in Hll. apply in_map_iff in Hll as (l0&<-&Hl0). apply strict_without, Q1, Hl0. }
          set (cs2 := set_minus cs' [f0]). set (ls2 := map (without [f0]) (pruned ls')).
          assert (Hin2 : forall c, In c cs2 <-> In c cs' /\ c <> f0).
          { intro c. unfold cs2. rewrite set_minus_In. split; intros [H1 H2]; (split; [exact H1|]); [intros ->; apply H2; left; reflexivity|intros [X|[]]; congruence]. }
          assert (Hs2 : strict_state cs0 ls0 (gone' ++ [f0]) cs2 ls2) by (apply (strict_next cs0 ls0 gone' cs' ls'); auto).
          assert (Hl2' : lines_inv cs2 ls2). { apply (next_lines_inv cs'); [rewrite Epr; exact Hl'|]. intros c Hcc. exact Hcc. }
          assert (Hn2' : NoDup cs2) by (apply NoDup_filter; exact Hn').
          assert (Hk2 : In k cs2) by (apply Hin2; auto).
          destruct (irv_trace o' (length cs2) 1%nat None cs2 ls2 Ho' Hn2' ltac:(intro X; rewrite X in Hk2; destruct Hk2) Hl2' (Nat.le_refl _)) as (w3&rs3&ms3&_&T3).
          rewrite <- (IH eq_refl Hr' (gone ++ [c0]) (gone' ++ [f0]) _ _ cs2 ls2 w3 rs3 ms3 Hnext Hs2 (Hst cs2 Hin2) T3).
          destruct (fewer_candidates gone' cs' ls' (gone' ++ [f0]) cs2 ls2 k Hs' Hl' Hn' Hs2 Hl2' Hn2' ltac:(intros c Hcc; apply Hin2 in Hcc; tauto) Hk2) as [F1 F2].
          symmetry. refine (majority_trace _ _ _ _ _ _ _ _ _ T3 Hk2 _ _); [|lia].
          intros c _. destruct (strict_tally _ _ _ _ _ Hs2 Hl2') as (_&_&Et&_). rewrite Et. apply ballots_where_nonneg, Hq.
        * assert (Hmn : mn2 = mn).
          { destruct (rn_min _ _ _ _ _ R2) as [(a&Ha&Ea) Hg]. specialize (Hg f0 Hf0). destruct (str_eq_dec a f0) as [->|Hna]; [congruence|]. specialize (Hmin' a Ha Hna). lia. }
          assert (Hb2 : filter (fun c => tally ls' c =? mn2) cs' = [f0]).
          { apply filter_singleton; [exact Hn'|exact Hf0|lia|]. intros c Hcc Ec. destruct (str_eq_dec c f0) as [|Hnc]; [assumption|]. specialize (Hmin' c Hcc Hnc). lia. }
          assert (E2 : e2 = [f0]).
          { destruct (elim_spec o' n' cs' ls' mn2 mx2 pen2 _ (rn_min _ _ _ _ _ R2) eq_refl) as (_&_&Hc2). cbv zeta in Hc2. rewrite Hb2 in Hc2. cbn [length] in Hc2.
            rewrite He2. destruct Hc2 as [(_&->)|[(H1&_)|(H1&_)]]; [reflexivity|lia|lia]. }
          rewrite E2 in T2.
          refine (IH eq_refl Hr' (gone ++ [c0]) (gone' ++ [f0]) _ _ _ _ w' _ _ Hnext (strict_next cs0 ls0 gone' cs' ls' [f0] _ Hs' Hl' (Ho' _ _)) (Hst _ _) T2).
          intro c. split.
          -- intro H. apply (Permutation_in _ (Ho' _ _)), set_minus_In in H as [H1 H2]. split; [exact H1|]. intros ->. apply H2. left. reflexivity.
          -- intros [H1 H2]. apply (Permutation_in _ (Permutation_sym (Ho' _ _))), set_minus_In. split; [exact H1|]. intros [X|[]]. congruence.
  Qed.
End Clones.

Lemma merged_keep K k m c : In k (cands m) -> In c (cands m) -> memb c (filter (fun c => str_eqb c k || negb (memb c K)) (cands m)) = negb (memb c (filter (fun c => negb (str_eqb c k)) K)).
Proof.
  intros Hk Hc. apply eq_true_iff_eq. rewrite memb_In, filter_In, negb_true_iff, memb_nIn, filter_In, orb_true_iff, !negb_true_iff, memb_nIn. split.
  - intros [_ [H|H]] [H1 H2]; [congruence|contradiction].
  - intro H. split; [exact Hc|]. destruct (str_eqb c k) eqn:E; [left; reflexivity|right]. intro X. apply H. auto.
Qed.
Lemma merged_election K k m : irv_election m -> strict_election m -> In k (cands m) -> irv_election (merged K k m) /\ strict_election (merged K k m) /\
  strict_state (cands m) (j_votelines m) (filter (fun c => negb (str_eqb c k)) K) (cands (merged K k m)) (j_votelines (merged K k m)).
Proof.
  intros Hm Hs Hk. pose proof (only_lines _ _ m Hm (fun c Hc => merged_keep K k m c Hk Hc)) as El. pose proof (only_cands (filter (fun c => str_eqb c k || negb (memb c K)) (cands m)) m) as Ec.
  change (only (filter (fun c => str_eqb c k || negb (memb c K)) (cands m)) m) with (merged K k m) in El, Ec.
  set (gone := filter (fun c => negb (str_eqb c k)) K) in *.
  assert (Hin : forall c, In c (cands (merged K k m)) <-> In c (cands m) /\ ~ In c gone).
  { intro c. rewrite Ec, filter_In. split; intros [H1 H2]; (split; [exact H1|]).
    - rewrite (merged_keep K k m c Hk H1) in H2. apply negb_true_iff, memb_nIn in H2. exact H2.
    - rewrite (merged_keep K k m c Hk H1). apply negb_true_iff, memb_nIn. exact H2. }
  split; [|split].
  - split; [rewrite Ec; apply NoDup_filter, Hm|]. split.
    + intro X. assert (H : In k (cands (merged K k m))) by (apply Hin; split; [exact Hk|]; unfold gone; rewrite filter_In, str_eqb_refl; intros [_ H]; discriminate). rewrite X in H. destruct H.
    + rewrite El. intros l Hl. apply in_map_iff in Hl as (l0&<-&Hl0). destruct (proj2 (proj2 Hm) l0 Hl0) as [[Q1 Q2] Q3]. split; [split|].
      * cbn. apply NoDup_map_fst_filter, Q1.
      * intros c Hc. cbn in Hc. apply in_map_iff in Hc as (kv&<-&Hkv). apply filter_In in Hkv as [Hkv Hg]. apply Hin. split; [apply Q2, in_map, Hkv|]. apply memb_nIn. destruct (memb (fst kv) gone); [discriminate|reflexivity].
      * intros c p Hcp. cbn in Hcp. apply filter_In in Hcp as [Hcp _]. exact (Q3 c p Hcp).
  - intros l Hl. rewrite El in Hl. apply in_map_iff in Hl as (l0&<-&Hl0). apply strict_without, Hs, Hl0.
  - split; [intros l Hl; destruct (proj2 (proj2 Hm) l Hl) as [Q1 Q2]; split; assumption|]. split; [exact Hs|]. split; [exact Hin|exact El].
Qed.

(** ** The claim *)
(** If a runoff is won by [w] alone and no round (but perhaps the last) had a tie at the bottom, then leaving one candidate [k] in place of a
    group that every ballot ranks together changes nothing: [k] wins if the winner was one of the group, and otherwise [w] still wins.
    Read the other way: however many similar candidates join [k], they neither take the victory from the others nor from [k]'s group. *)
Theorem C93_clones : forall o o' m d K k w, schedule o -> schedule o' -> irv_election m -> strict_election m -> counts_ok m ->
  In k K -> In k (cands m) -> (forall l, In l (j_votelines m) -> clones K l) ->
  IRV_dict_from_jabmod o m = Ok d -> ir_winner d = [w] -> (forall i rc rm, round d i rc rm -> ~ final d i -> im_bottomtie rm = None) ->
  irv_election (merged K k m) /\ strict_election (merged K k m) /\
  exists d', IRV_dict_from_jabmod o' (merged K k m) = Ok d' /\ ir_winner d' = [if memb w K then k else w].
Proof.
  intros o o' m d K k w Ho Ho' Hm Hs Hq Hk Hkc HK E Hw Ht. destruct (merged_election K k m Hm Hs Hkc) as (Hm'&Hs'&St). split; [exact Hm'|]. split; [exact Hs'|].
  destruct (irv_run o m Ho Hm) as (x&Ex&T&_). rewrite E in Ex. apply ok_inj in Ex. subst x. rewrite Hw in T.
  destruct (irv_run o' _ Ho' Hm') as (d'&E'&T'&_). exists d'. split; [exact E'|]. destruct (trace_lengths _ _ _ _ _ _ _ _ T) as [L _].
  refine (clone_trace (cands m) (j_votelines m) K k Hq HK Hk o o' _ _ _ _ w _ _ Ho Ho' T _ [] _ _ _ _ _ _ _ _ (strict_init _ _ _ _) St _ T').
  - intros j rm Hj Hlt. destruct (nth_error (ir_rounds d) j) as [rc|] eqn:Er.
    + apply (Ht j rc rm); [split; assumption|]. unfold final. lia.
    + apply nth_error_None in Er. lia.
  - intros l Hl. destruct (proj2 (proj2 Hm) l Hl) as [Q1 Q2]. split; assumption.
  - exact Hs.
  - intro c. pose proof (only_cands (filter (fun c => str_eqb c k || negb (memb c K)) (cands m)) m) as Ec.
    change (only (filter (fun c => str_eqb c k || negb (memb c K)) (cands m)) m) with (merged K k m) in Ec. rewrite Ec, filter_In, memb_In, filter_In, orb_true_iff, negb_true_iff, memb_nIn. split.
    + intros [H1 [_ [H2|H2]]]; [right; apply str_eqb_eq in H2; subst c; split; [reflexivity|exists k; auto]|left; auto].
    + intros [[H1 H2]|[-> _]]; [auto|]. rewrite str_eqb_refl. auto.
Qed.
Print Assumptions C93_clones.

(** B and C are clones: A leads in the first round, then C's voters turn to B.  With B alone the result is the same. *)
Definition split_vote : jabmod := Jabmod [] [(A, u "Ann"); (B, u "Bob"); (C, u "Cy"); (D, u "Di")]
  [ vl 8 [(A, ranked 1); (D, ranked 2)]; vl 6 [(B, ranked 1); (C, ranked 2)]; vl 4 [(C, ranked 1); (B, ranked 3); (A, ranked 4)]; vl 1 [(D, ranked 1)] ].
Theorem C93_nonvacuous : exists d d', irv_election split_vote /\ strict_election split_vote /\ counts_ok split_vote /\ (forall l, In l (j_votelines split_vote) -> clones [B; C] l) /\
  IRV_dict_from_jabmod o0 split_vote = Ok d /\ ir_winner d = [B] /\ (forall i rc rm, round d i rc rm -> ~ final d i -> im_bottomtie rm = None) /\
  IRV_dict_from_jabmod o0 (merged [B; C] C split_vote) = Ok d' /\ ir_winner d' = [C].
Proof.
  eexists. eexists. split; [irv_elec|]. split; [strict_elec|]. split; [intros l Hl; cbn in Hl; repeat destruct Hl as [<-|Hl]; try (cbn; lia); destruct Hl|].
  split; [|split; [vm_compute; reflexivity|split; [reflexivity|split; [|split; [vm_compute; reflexivity|reflexivity]]]]].
  - intros l Hl x y Hx Hy.
    assert (Hc : forall c, ~ In c [B; C] -> str_eqb c B = false /\ str_eqb c C = false) by (intros c Hc; split; apply str_eqb_neq; intros ->; apply Hc; cbn; auto).
    assert (Hc' : forall c, ~ In c [B; C] -> str_eqb B c = false /\ str_eqb C c = false) by (intros c Hc0; split; apply str_eqb_neq; intros <-; apply Hc0; cbn; auto).
    assert (G : forall c, ~ In c [B; C] -> In c (cands split_vote) \/ forall l, In l (j_votelines split_vote) -> rank_on l c = None).
    { intros c Hcn. destruct (memb c (cands split_vote)) eqn:Em; [left; apply memb_In, Em|right]. intros l0 Hl0. apply memb_nIn in Em. unfold rank_on.
      destruct (dget c (v_prefs l0)) eqn:Ed; [exfalso|reflexivity]. apply Em. cbn in Hl0. repeat destruct Hl0 as [<-|Hl0]; try destruct Hl0; cbn in Ed;
      repeat match type of Ed with context [if ?b then _ else _] => destruct b eqn:?; [match goal with H : str_eqb _ _ = true |- _ => apply str_eqb_eq in H; subst c; cbn; auto 6 end|] end; discriminate. }
    cbn in Hl. repeat destruct Hl as [<-|Hl]; try destruct Hl; cbn in Hx, Hy; repeat destruct Hx as [<-|Hx]; try destruct Hx; repeat destruct Hy as [<-|Hy]; try destruct Hy;
      (split; [reflexivity|]); intros c Hcn;
      (destruct (G c Hcn) as [Gc|Gc]; [cbn in Gc; repeat destruct Gc as [<-|Gc]; try destruct Gc; try (split; reflexivity); exfalso; apply Hcn; cbn; auto
        | match goal with |- prefers ?l _ _ = _ /\ _ => assert (Gl : rank_on l c = None) by (apply Gc; cbn; auto 6); unfold prefers; rewrite Gl; split; reflexivity end]).
  - intros i rc rm [H1 H2] Hf. unfold final in Hf. cbn in H1, H2, Hf. destruct i as [|[|[|i]]]; cbn in H1, H2; try (apply some_inj in H2; subst rm; reflexivity); try (exfalso; apply Hf; reflexivity); destruct i; discriminate.
Qed.
Print Assumptions C93_nonvacuous.

(** In a complete tie the group gets more places than it had votes for: here A, B and C tie, but B alone would win. *)
Definition tied_clones : jabmod := Jabmod [] [(A, u "Ann"); (B, u "Bob"); (C, u "Cy")] [ vl 5 [(A, ranked 1)]; vl 5 [(B, ranked 1); (C, ranked 2)]; vl 5 [(C, ranked 1); (B, ranked 2)] ].
Theorem C93_complete_tie_refuted : exists d d', IRV_dict_from_jabmod o0 tied_clones = Ok d /\ ir_winner d = [A; B; C] /\
  IRV_dict_from_jabmod o0 (merged [B; C] B tied_clones) = Ok d' /\ ir_winner d' = [B].
Proof. do 2 eexists. split; [vm_compute; reflexivity|]. split; [reflexivity|]. split; [vm_compute; reflexivity|reflexivity]. Qed.
Print Assumptions C93_complete_tie_refuted.
