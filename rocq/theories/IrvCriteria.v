(** * IrvCriteria: voting criteria for IRV, reasoning about traces *)

From Verif Require Import PyBase PyFacts Jabmod PairwiseModel Spec PairwiseFacts IrvModel IrvFacts IrvStrict IrvTrace.
Local Open Scope Z_scope.

Lemma strict_step o cs0 ls0 n cs ls cs' ls' : valid_oracle o ->
  irv_step o n cs ls cs' ls' -> (exists gone, strict_state cs0 ls0 gone cs ls) ->
  exists gone, strict_state cs0 ls0 gone cs' ls'.
Proof.
  intros Ho (mn&mx&pen&e&Hn&Hne&Hl&R&Hd&He&->&->) [gone Hs]. exists (gone ++ e).
  apply (strict_next cs0 ls0 gone cs ls); auto.
Qed.

(** ** Sums of tallies over groups of candidates *)

Lemma ballots_where_le p q ls : nonneg_lines ls -> (forall l, In l ls -> p l = true -> q l = true) ->
  ballots_where p ls <= ballots_where q ls.
Proof.
  intros Hq H. unfold ballots_where. apply zsum_le. intros l Hl. specialize (Hq l Hl). specialize (H l Hl).
  destruct (p l), (q l); try lia; specialize (H eq_refl); discriminate.
Qed.

Lemma ballots_where_total p ls : nonneg_lines ls -> ballots_where p ls <= zsum (map v_qty ls).
Proof. intro Hq. apply zsum_le. intros l Hl. specialize (Hq l Hl). destruct (p l); lia. Qed.

Lemma top_choice_unique cs l a b : top_choice cs l a = true -> top_choice cs l b = true -> a = b.
Proof.
  unfold top_choice. intros Ha Hb. rewrite !andb_true_iff in Ha, Hb. destruct Ha as [[Ha1 Ha2] Ha3], Hb as [[Hb1 Hb2] Hb3].
  rewrite forallb_forall in Ha3, Hb3. apply memb_In in Ha1, Hb1. specialize (Ha3 b Hb1). specialize (Hb3 a Ha1).
  apply orb_true_iff in Ha3 as [H|Ha3]; [apply str_eqb_eq; exact H|].
  apply orb_true_iff in Hb3 as [H|Hb3]; [symmetry; apply str_eqb_eq; exact H|].
  unfold prefers in Ha3, Hb3. destruct (rank_on l a), (rank_on l b); try discriminate; lia.
Qed.

(** The ballots topped by somebody of a duplicate-free group. *)
Definition top_in (cs : list str) (g : list str) (l : voteline) : bool := existsb (top_choice cs l) g.

Lemma group_sum cs g ls : NoDup g ->
  zsum (map (fun c => ballots_where (fun l => top_choice cs l c) ls) g) = ballots_where (top_in cs g) ls.
Proof.
  intro Hn. unfold ballots_where. rewrite zsum_map_swap. apply zsum_map_ext. intros l _. unfold top_in.
  induction g as [|c r IH]; [reflexivity|]. inversion Hn as [|? ? Hc Hr]; subst. cbn [map zsum existsb]. rewrite IH by exact Hr.
  destruct (top_choice cs l c) eqn:Et; cbn [orb]; [|lia].
  destruct (existsb (top_choice cs l) r) eqn:Ex; [|lia]. exfalso.
  apply existsb_exists in Ex as [b [Hb Eb]]. rewrite (top_choice_unique cs l c b Et Eb) in Hc. contradiction.
Qed.

Lemma forallb_false_ex {A} (p : A -> bool) l : forallb p l = false -> exists x, In x l /\ p x = false.
Proof.
  induction l as [|a r IH]; cbn [forallb]; intro H; [discriminate|]. destruct (p a) eqn:E.
  - destruct IH as [x [Hx Ex]]; [exact H|]. exists x. split; [right; exact Hx|exact Ex].
  - exists a. split; [left; reflexivity|exact E].
Qed.

(** A strict line that lists somebody standing has a top choice. *)
Lemma has_top_choice cs0 cs l :
  line_ok cs0 l -> has_ranks l -> strict_line big_rank l -> incl cs cs0 -> lists_nobody cs l = false ->
  exists c, In c cs /\ top_choice cs l c = true.
Proof.
  intros [Hnd Hinc] Hr [Hs [Hb He]] Hi Hln.
  assert (Hex : exists c, In c cs /\ lists l c = true).
  { unfold lists_nobody in Hln. apply forallb_false_ex in Hln as [c [Hc Hlc]]. exists c. split; [exact Hc|]. destruct (lists l c); [reflexivity|discriminate]. }
  assert (Hrk : forall c, lists l c = true -> exists r, rank_on l c = Some r).
  { intros c Hc. unfold lists in Hc. unfold rank_on. destruct (dget c (v_prefs l)) as [p|] eqn:Ed; [|discriminate].
    apply dget_In in Ed. specialize (Hr c p Ed). destruct (p_rank p); [eauto|congruence]. }
  assert (G : forall g, (exists c, In c g /\ lists l c = true) -> incl g cs ->
     exists c, In c g /\ lists l c = true /\ forall d r, In d g -> rank_on l d = Some r -> forall x, rank_on l c = Some x -> x <= r).
  { induction g as [|a g IH]; intros [c [Hc Hlc]] Hg; [destruct Hc|].
    assert (Hg' : incl g cs) by (intros x Hx; apply Hg; right; exact Hx).
    destruct (existsb (lists l) g) eqn:Eg.
    - apply existsb_exists in Eg. destruct (IH Eg Hg') as (b&Hb1&Hb2&Hb3).
      destruct (Hrk b Hb2) as [rb Erb].
      destruct (rank_on l a) as [ra|] eqn:Ea.
      + destruct (Z_le_gt_dec rb ra).
        * exists b. split; [right; exact Hb1|]. split; [exact Hb2|]. intros d r [<-|Hd] Ed x Ex.
          -- rewrite Ea in Ed. apply some_inj in Ed. rewrite Erb in Ex. apply some_inj in Ex. lia.
          -- eapply Hb3; eauto.
        * exists a. split; [left; reflexivity|]. split.
          -- unfold lists. unfold rank_on in Ea. destruct (dget a (v_prefs l)); [reflexivity|discriminate].
          -- intros d r [<-|Hd] Ed x Ex; rewrite Ea in *; apply some_inj in Ex.
             ++ apply some_inj in Ed. lia.
             ++ specialize (Hb3 d r Hd Ed rb Erb). lia.
      + exists b. split; [right; exact Hb1|]. split; [exact Hb2|]. intros d r [<-|Hd] Ed x Ex; [congruence|eapply Hb3; eauto].
    - exists c. split; [exact Hc|]. split; [exact Hlc|]. destruct Hc as [->|Hc].
      + intros d r [<-|Hd] Ed x Ex; [rewrite Ed in Ex; apply some_inj in Ex; lia|].
        exfalso. assert (Hx : existsb (lists l) g = true); [|congruence].
        apply existsb_exists. exists d. split; [exact Hd|]. unfold lists. unfold rank_on in Ed.
        destruct (dget d (v_prefs l)); [reflexivity|discriminate].
      + exfalso. assert (Hx : existsb (lists l) g = true); [|congruence]. apply existsb_exists. eauto. }
  destruct (G cs Hex (incl_refl _)) as (c&Hc1&Hc2&Hc3). exists c. split; [exact Hc1|].
  unfold top_choice. rewrite (proj2 (memb_In _ _) Hc1), Hc2. cbn [andb]. apply forallb_forall. intros d Hd.
  apply orb_true_iff. destruct (str_eqb c d) eqn:Ecd; [left; reflexivity|right]. apply str_eqb_neq in Ecd.
  unfold prefers. destruct (Hrk c Hc2) as [x Ex]. rewrite Ex. destruct (rank_on l d) as [r|] eqn:Ed; [|reflexivity].
  specialize (Hc3 d r Hd Ed x Ex). destruct (Z.eq_dec x r) as [->|]; [|lia]. exfalso. apply Ecd. exact (Hs c d r Ex Ed).
Qed.

(** ** Numbers of one round *)

Lemma zsum_incl (f : str -> Z) a b :
  NoDup a -> NoDup b -> incl a b -> (forall c, In c b -> 0 <= f c) -> zsum (map f a) <= zsum (map f b).
Proof.
  intros Ha Hb Hi Hf.
  assert (P : Permutation (filter (fun c => memb c a) b) a).
  { apply NoDup_Permutation; [apply NoDup_filter; exact Hb|exact Ha|]. intro x. rewrite filter_In, memb_In. split; [tauto|].
    intro H. split; [apply Hi; exact H|exact H]. }
  rewrite <- (zsum_perm _ _ (Permutation_map f P)), zsum_filter. apply zsum_le. intros c Hc. specialize (Hf c Hc).
  destruct (memb c a); lia.
Qed.

Lemma group_plus (f : str -> Z) g cs d :
  NoDup cs -> In d cs -> ~ In d g -> (forall c, In c cs -> 0 <= f c) ->
  zsum (map f (filter (fun c => memb c g) cs)) + f d <= zsum (map f cs).
Proof.
  intros Hn Hd Hg Hf. rewrite zsum_filter, <- (zsum_single d f cs Hn Hd), <- zsum_map_add.
  apply zsum_le. intros c Hc. specialize (Hf c Hc). destruct (str_eqb d c) eqn:E; [|destruct (memb c g); lia].
  apply str_eqb_eq in E. subst d. destruct (memb c g) eqn:Em; [apply memb_In in Em; contradiction|lia].
Qed.

(** Those eliminated together never have more votes than the leader. *)
Lemma elim_sum_le o n cs ls mn mx pen e :
  round_numbers cs ls mn mx pen -> mn <> mx -> e = ed_eliminated (elim_decision o n (ri_of cs ls mn mx pen)) ->
  zsum (map (tally ls) e) <= mx.
Proof.
  intros R Hne He. destruct (elim_spec o n cs ls mn mx pen _ (rn_min _ _ _ _ _ R) eq_refl) as [_ [_ Hc]].
  destruct (rn_min _ _ _ _ _ R) as [[cmin [Hcmin Emin]] Hmin].
  destruct (rn_max _ _ _ _ _ R) as [[cmax [Hcmax Emax]] Hmax].
  cbv zeta in Hc. set (bottom := filter (fun c => tally ls c =? mn) cs) in *.
  assert (Hb : forall c, In c bottom -> tally ls c = mn) by (intros c H; apply filter_In in H as [_ H]; lia).
  specialize (Hmin cmax Hcmax).
  destruct Hc as [(Hlen&Eed)|[(Hlen&Hsafe&Eed)|(Hlen&Hunsafe&x&Hx&Eed)]]; rewrite Eed in He; cbn [ed_eliminated] in He; subst e.
  - destruct bottom as [|c [|]]; cbn [length] in Hlen; try lia. cbn [map zsum]. rewrite (Hb c) by (left; reflexivity). lia.
  - destruct (rn_pen _ _ _ _ _ R) as [_ Hp]. destruct (Hp Hne) as [_ Hp2].
    assert (pen <= tally ls cmax); [|lia]. apply Hp2. apply filter_In. split; [exact Hcmax|].
    destruct (Z.gtb_spec (tally ls cmax) mn); [reflexivity|lia].
  - cbn [map zsum]. rewrite (Hb x Hx). lia.
Qed.

Section STRICT.
Variables (cs0 : list str) (ls0 : list voteline).
Hypothesis Hnn : nonneg_lines ls0.

Lemma strict_numbers gone cs ls : strict_state cs0 ls0 gone cs ls -> lines_inv cs ls -> NoDup cs ->
  (forall c, tally ls c = ballots_where (fun l => top_choice cs l c) ls0) /\
  (forall c, 0 <= tally ls c) /\
  (forall g, NoDup g -> zsum (map (tally ls) g) = ballots_where (top_in cs g) ls0) /\
  zsum (map (tally ls) cs) <= zsum (map v_qty ls0).
Proof.
  intros Hs Hl Hn. destruct (strict_tally _ _ _ _ _ Hs Hl) as (_&_&Ht&_).
  assert (Hg : forall g, NoDup g -> zsum (map (tally ls) g) = ballots_where (top_in cs g) ls0).
  { intros g Hgn. rewrite <- group_sum by exact Hgn. apply zsum_map_ext. intros c _. apply Ht. }
  split; [exact Ht|]. split; [intro c; rewrite Ht; apply ballots_where_nonneg; exact Hnn|]. split; [exact Hg|].
  rewrite Hg by exact Hn. apply ballots_where_total; exact Hnn.
Qed.

(** ** Mutual majority *)

Lemma solid_top s b0 gone cs ls l a :
  strict_state cs0 ls0 gone cs ls -> In l ls0 -> solid_for s cs0 l = true ->
  In b0 cs0 -> ~ In b0 s -> In a cs -> In a s ->
  top_in cs (filter (fun c => memb c s) cs) l = true.
Proof.
  intros (Hi&Hs&Hrem&_) Hl Hsol Hb0 Hb0s Ha Has.
  destruct (Hi l Hl) as [Hok Hr]. assert (Hss := Hs l Hl).
  assert (Hinc : incl cs cs0) by (intros c Hc; apply Hrem in Hc; tauto).
  assert (Hpref : forall x y, In x cs0 -> In x s -> In y cs0 -> ~ In y s -> prefers l x y = true).
  { intros x y Hx Hxs Hy Hys. unfold solid_for in Hsol. rewrite forallb_forall in Hsol. specialize (Hsol x Hx).
    rewrite forallb_forall in Hsol. specialize (Hsol y Hy). apply memb_In in Hxs. apply memb_nIn in Hys.
    rewrite Hxs, Hys in Hsol. exact Hsol. }
  assert (Hla : lists l a = true).
  { assert (Hp := Hpref a b0 (Hinc a Ha) Has Hb0 Hb0s). unfold prefers, rank_on in Hp. unfold lists.
    destruct (dget a (v_prefs l)); [reflexivity|discriminate]. }
  destruct (has_top_choice cs0 cs l Hok Hr Hss Hinc) as (t&Ht&Ett).
  { unfold lists_nobody. destruct (forallb (fun c => negb (lists l c)) cs) eqn:E; [|reflexivity].
    rewrite forallb_forall in E. specialize (E a Ha). rewrite Hla in E. discriminate. }
  unfold top_in. apply existsb_exists. exists t. split; [|exact Ett]. apply filter_In. split; [exact Ht|].
  destruct (memb t s) eqn:Em; [reflexivity|]. exfalso. apply memb_nIn in Em.
  assert (Hp := Hpref a t (Hinc a Ha) Has (Hinc t Ht) Em).
  unfold top_choice in Ett. apply andb_true_iff in Ett as [_ Ett]. rewrite forallb_forall in Ett. specialize (Ett a Ha).
  apply orb_true_iff in Ett as [Et|Et].
  - apply str_eqb_eq in Et. subst. contradiction.
  - unfold prefers in Hp, Et. destruct (rank_on l a), (rank_on l t); try discriminate. lia.
Qed.

Lemma mutual_majority o n pa cs ls w rs ms s b0 :
  valid_oracle o -> trace o n pa cs ls w rs ms -> (exists gone, strict_state cs0 ls0 gone cs ls) ->
  zsum (map v_qty ls0) < 2 * ballots_where (solid_for s cs0) ls0 ->
  In b0 cs0 -> ~ In b0 s ->
  (exists a, In a cs /\ In a s) -> exists x, In x w /\ In x s.
Proof.
  intros Ho T. induction T as [n pa cs ls mn mx pen Hn Hne Hl R Hd|n pa cs ls mn mx pen e w rs ms Hn Hne Hl R Hd He T IH];
    intros [gone Hst] Hmaj Hb0 Hb0s [a [Ha Has]];
    destruct (strict_numbers gone cs ls Hst Hl Hn) as (Ht&Hpos&Hg&Htot);
    set (g := filter (fun c => memb c s) cs) in *.
  1,2: assert (Hgs : ballots_where (solid_for s cs0) ls0 <= zsum (map (tally ls) g))
    by (rewrite Hg by (apply NoDup_filter; exact Hn); apply ballots_where_le; [exact Hnn|];
        intros l Hll Hsol; exact (solid_top s b0 gone cs ls l a Hst Hll Hsol Hb0 Hb0s Ha Has)).
  - destruct (rn_min _ _ _ _ _ R) as [_ Hmin]. destruct (rn_max _ _ _ _ _ R) as [[cmax [Hcmax Emax]] Hmax].
    destruct (Z.eq_dec mn mx) as [Heq|Hneq].
    + exists a. split; [|exact Has]. apply filter_In. split; [exact Ha|]. specialize (Hmin a Ha). specialize (Hmax a Ha). lia.
    + destruct Hd as [Hd|Hd]; [contradiction|].
      exists cmax. split; [apply filter_In; split; [exact Hcmax|lia]|].
      destruct (memb cmax s) eqn:Em; [apply memb_In; exact Em|]. apply memb_nIn in Em. exfalso.
      pose proof (group_plus (tally ls) s cs cmax Hn Hcmax Em (fun c _ => Hpos c)) as Hgp. fold g in Hgp. lia.
  - apply IH; auto.
    + exists (gone ++ e). apply (strict_next cs0 ls0 gone cs ls); auto.
    + assert (Hneq : mn <> mx) by (intro; apply Hd; left; assumption).
      destruct (elim_facts o n cs ls mn mx pen e Hn R He) as (He1&He2&He3&He4&He5).
      destruct (He5 Hneq) as [cmax [Hcm [Hcme Ecm]]].
      destruct (existsb (fun c => negb (memb c e)) g) eqn:Eex.
      * apply existsb_exists in Eex as [x [Hx Ex]]. apply negb_true_iff, memb_nIn in Ex.
        unfold g in Hx. apply filter_In in Hx as [Hx1 Hx2]. exists x. split; [|apply memb_In; exact Hx2].
        apply (Permutation_in _ (Permutation_sym (Ho n _))). apply set_minus_In; auto.
      * exfalso. assert (Hge : incl g e).
        { intros x Hx. destruct (memb x e) eqn:Em; [apply memb_In; exact Em|]. exfalso.
          assert (Hx' : existsb (fun c => negb (memb c e)) g = true); [|congruence].
          apply existsb_exists. exists x. split; [exact Hx|rewrite Em; reflexivity]. }
        assert (Hms : ~ In cmax s).
        { intro H. apply Hcme, Hge. apply filter_In. split; [exact Hcm|apply memb_In; exact H]. }
        pose proof (group_plus (tally ls) s cs cmax Hn Hcm Hms (fun c _ => Hpos c)) as Hgp. fold g in Hgp.
        pose proof (elim_sum_le o n cs ls mn mx pen e R Hneq He) as Hes.
        pose proof (zsum_incl (tally ls) g e (NoDup_filter _ Hn) He2 Hge (fun c _ => Hpos c)). lia.
Qed.

(** ** Condorcet loser *)

Lemma top_prefers cs l x b : top_choice cs l x = true -> In b cs -> x <> b -> prefers l x b = true.
Proof.
  unfold top_choice. intros H Hb Hne. apply andb_true_iff in H as [_ H]. rewrite forallb_forall in H. specialize (H b Hb).
  apply orb_true_iff in H as [H|H]; [apply str_eqb_eq in H; contradiction|exact H].
Qed.

Lemma prefers_asym l a b : prefers l a b = true -> prefers l b a = false.
Proof. unfold prefers. destruct (rank_on l a), (rank_on l b); intro; try discriminate; auto. lia. Qed.

Lemma head_to_head gone cs ls x b :
  strict_state cs0 ls0 gone cs ls -> lines_inv cs ls -> NoDup cs -> In x cs -> In b cs -> x <> b ->
  tally ls x <= ballots_where (fun l => prefers l x b) ls0 /\
  ballots_where (fun l => prefers l b x) ls0 + tally ls x <= zsum (map (tally ls) cs).
Proof.
  intros Hst Hl Hn Hx Hb Hne. destruct (strict_numbers gone cs ls Hst Hl Hn) as (Ht&Hpos&Hg&Htot). split.
  - rewrite Ht. apply ballots_where_le; [exact Hnn|]. intros l _ H. exact (top_prefers cs l x b H Hb Hne).
  - rewrite Hg by exact Hn. rewrite Ht. unfold ballots_where. rewrite <- zsum_map_add. apply zsum_le. intros l Hll.
    destruct Hst as (Hi&Hs&Hrem&_). destruct (Hi l Hll) as [Hok Hr].
    assert (Hinc : incl cs cs0) by (intros c Hc; apply Hrem in Hc; tauto).
    specialize (Hnn l Hll).
    destruct (top_choice cs l x) eqn:Etx.
    + assert (E : top_in cs cs l = true) by (apply existsb_exists; exists x; auto). rewrite E.
      rewrite (prefers_asym l x b); [lia|]. apply (top_prefers cs); assumption.
    + destruct (prefers l b x) eqn:Ep; [|destruct (top_in cs cs l); lia].
      assert (E : top_in cs cs l = true).
      { destruct (has_top_choice cs0 cs l Hok Hr (Hs l Hll) Hinc) as (t&Htc&Ett).
        - unfold lists_nobody. destruct (forallb (fun c => negb (lists l c)) cs) eqn:E; [|reflexivity].
          rewrite forallb_forall in E. specialize (E b Hb). unfold prefers, rank_on in Ep. unfold lists in E.
          destruct (dget b (v_prefs l)); discriminate.
        - apply existsb_exists. exists t; auto. }
      rewrite E. lia.
Qed.

Lemma another (cs : list str) (x : str) : NoDup cs -> (2 <= length cs)%nat -> exists b, In b cs /\ b <> x.
Proof.
  intros Hn Hl. destruct cs as [|a [|b r]]; cbn [length] in Hl; try lia.
  destruct (str_eqb a x) eqn:E.
  - apply str_eqb_eq in E. subst. exists b. split; [right; left; reflexivity|]. intros ->. inversion Hn as [|? ? H _]; subst. apply H; left; reflexivity.
  - apply str_eqb_neq in E. exists a. split; [left; reflexivity|exact E].
Qed.

Lemma no_condorcet_loser o n pa cs ls w rs ms x :
  valid_oracle o -> trace o n pa cs ls w rs ms -> (exists gone, strict_state cs0 ls0 gone cs ls) ->
  (2 <= length cs)%nat -> w = [x] ->
  exists b, In b cs /\ b <> x /\
    ballots_where (fun l => prefers l b x) ls0 <= ballots_where (fun l => prefers l x b) ls0.
Proof.
  intros Ho T. induction T as [n pa cs ls mn mx pen Hn Hne Hl R Hd|n pa cs ls mn mx pen e w rs ms Hn Hne Hl R Hd He T IH];
    intros [gone Hst] H2 Hw.
  - destruct (rn_min _ _ _ _ _ R) as [_ Hmin]. destruct (rn_max _ _ _ _ _ R) as [_ Hmax].
    destruct (Z.eq_dec mn mx) as [Heq|Hneq].
    + rewrite filter_all in Hw; [subst cs; cbn in H2; lia|]. intros c Hc. specialize (Hmin c Hc). specialize (Hmax c Hc). lia.
    + destruct Hd as [Hd|Hd]; [contradiction|].
      assert (Hx : In x (filter (fun c => tally ls c =? mx) cs)) by (rewrite Hw; left; reflexivity).
      apply filter_In in Hx as [Hx Ex]. destruct (another cs x Hn H2) as [b [Hb Hbx]]. exists b. split; [exact Hb|]. split; [exact Hbx|].
      destruct (head_to_head gone cs ls x b Hst Hl Hn Hx Hb) as [H3 H4]; [congruence|]. lia.
  - assert (Hneq : mn <> mx) by (intro; apply Hd; left; assumption).
    destruct (elim_facts o n cs ls mn mx pen e Hn R He) as (He1&He2&He3&He4&He5).
    destruct (He5 Hneq) as [cmax [Hcm [Hcme Ecm]]].
    assert (P := Ho n (set_minus cs e)).
    destruct (le_lt_dec 2 (length (o_order o n (set_minus cs e)))) as [Hle|Hlt].
    + destruct IH as [b [Hb [Hbx Hv]]]; auto.
      { exists (gone ++ e). apply (strict_next cs0 ls0 gone cs ls); auto. }
      exists b. split; [|auto]. apply (Permutation_in _ P), set_minus_In in Hb. tauto.
    + destruct (trace_winner _ _ _ _ _ _ _ _ Ho T) as (_&_&Hwi). subst w.
      assert (Hx : In x (o_order o n (set_minus cs e))) by (apply Hwi; left; reflexivity).
      assert (Hcm' : In cmax (o_order o n (set_minus cs e))) by (apply (Permutation_in _ (Permutation_sym P)), set_minus_In; auto).
      remember (o_order o n (set_minus cs e)) as cs' eqn:Ecs'.
      destruct cs' as [|y [|z r]]; cbn [length] in Hlt; [destruct Hx| |lia].
      destruct Hx as [->|[]]. destruct Hcm' as [->|[]].
      destruct e as [|b e'] eqn:Ee; [congruence|]. rewrite <- Ee in *.
      assert (Hb : In b e) by (rewrite Ee; left; reflexivity). clear Ee.
      assert (Hbx : b <> cmax) by (intros ->; contradiction).
      exists b. split; [apply He3; exact Hb|]. split; [exact Hbx|].
      destruct (head_to_head gone cs ls cmax b Hst Hl Hn Hcm (He3 b Hb)) as [H3 H4]; [congruence|].
      assert (Pc : Permutation cs (cmax :: e)).
      { apply NoDup_Permutation; [exact Hn|constructor; assumption|]. intro c. split.
        - intro Hc. destruct (memb c e) eqn:Em; [right; apply memb_In; exact Em|left].
          apply memb_nIn in Em. assert (Hi : In c [cmax]) by (apply (Permutation_in _ (Permutation_sym P)), set_minus_In; auto).
          destruct Hi as [Hi|[]]; exact Hi.
        - intros [<-|Hc]; [exact Hcm|apply He3; exact Hc]. }
      assert (Es := zsum_perm _ _ (Permutation_map (tally ls) Pc)). cbn [map zsum] in Es.
      pose proof (elim_sum_le o n cs ls mn mx pen e R Hneq He) as Hes. lia.
Qed.
End STRICT.

(** ** Independence of chance *)

Lemma least_unique f cs cs' x y : (forall c, In c cs <-> In c cs') -> least f cs x -> least f cs' y -> x = y.
Proof.
  intros H [[a [Ha Ea]] Hx] [[b [Hb Eb]] Hy].
  assert (y <= f a) by (apply Hy, H, Ha). assert (x <= f b) by (apply Hx, H, Hb). lia.
Qed.
Lemma greatest_unique f cs cs' x y : (forall c, In c cs <-> In c cs') -> greatest f cs x -> greatest f cs' y -> x = y.
Proof.
  intros H [[a [Ha Ea]] Hx] [[b [Hb Eb]] Hy].
  assert (f a <= y) by (apply Hy, H, Ha). assert (f b <= x) by (apply Hx, H, Hb). lia.
Qed.

Lemma numbers_unique cs cs' ls ls' mn mx pen mn' mx' pen' :
  (forall c, In c cs <-> In c cs') -> (forall c, tally ls c = tally ls' c) ->
  round_numbers cs ls mn mx pen -> round_numbers cs' ls' mn' mx' pen' -> mn = mn' /\ mx = mx' /\ pen = pen'.
Proof.
  intros H Et [A1 A2 A3] [B1 B2 B3].
  assert (L : forall l x, least (tally ls') l x -> least (tally ls) l x).
  { intros l x [[a [Ha Ea]] Hx]. split; [exists a; rewrite Et; auto|]. intros c Hc. rewrite Et. auto. }
  assert (G : forall l x, greatest (tally ls') l x -> greatest (tally ls) l x).
  { intros l x [[a [Ha Ea]] Hx]. split; [exists a; rewrite Et; auto|]. intros c Hc. rewrite Et. auto. }
  assert (E1 : mn = mn') by (apply (least_unique (tally ls) cs cs'); auto).
  assert (E2 : mx = mx') by (apply (greatest_unique (tally ls) cs cs'); auto).
  subst mn' mx'. split; [reflexivity|]. split; [reflexivity|].
  destruct A3 as [A3 A4], B3 as [B3 B4]. destruct (Z.eq_dec mn mx) as [e|ne].
  - rewrite A3, B3 by exact e. reflexivity.
  - specialize (A4 ne). specialize (B4 ne).
    apply (least_unique (tally ls) (filter (fun c => tally ls c >? mn) cs) (filter (fun c => tally ls' c >? mn) cs')); auto.
    intro c. rewrite !filter_In, Et, H. reflexivity.
Qed.

Lemma Permutation_filter {A} (p : A -> bool) l l' : Permutation l l' -> Permutation (filter p l) (filter p l').
Proof.
  induction 1 as [|x l l' H IH|x y l|l1 l2 l3 H1 IH1 H2 IH2]; cbn [filter].
  - constructor.
  - destruct (p x); [constructor|]; assumption.
  - destruct (p x), (p y); try apply Permutation_refl. constructor.
  - eapply perm_trans; eassumption.
Qed.

Lemma without_ext e e' l : (forall c, In c e <-> In c e') -> without e l = without e' l.
Proof.
  intro H. unfold without, with_prefs. f_equal. apply filter_ext. intro kv. f_equal.
  destruct (memb (fst kv) e) eqn:E1, (memb (fst kv) e') eqn:E2; auto.
  - apply memb_In, H, memb_In in E1. congruence.
  - apply memb_In, H, memb_In in E2. congruence.
Qed.

(** The round metadata agree, up to the order of candidates. *)
Definition meta_agree (a b : irvmeta) : Prop :=
  im_roundnum a = im_roundnum b /\ im_startingqty a = im_startingqty b /\ im_exhaustedqty a = im_exhaustedqty b /\
  im_overvoteqty a = im_overvoteqty b /\ im_ballotcount a = im_ballotcount b /\ im_countedqty a = im_countedqty b /\
  im_batch_elim a = im_batch_elim b /\ im_random_elim a = im_random_elim b /\
  Permutation (im_starting_cands a) (im_starting_cands b).

Lemma zsum_tally_perm cs cs' ls : Permutation cs cs' -> zsum (map (tally ls) cs) = zsum (map (tally ls) cs').
Proof. intro P. apply zsum_perm, Permutation_map, P. Qed.

(** The elimination decisions of two runs in the same situation. *)
Lemma elim_agree o o' n n' cs cs' ls mn mx pen :
  Permutation cs cs' -> round_numbers cs ls mn mx pen -> round_numbers cs' ls mn mx pen ->
  let ed := elim_decision o n (ri_of cs ls mn mx pen) in
  let ed' := elim_decision o' n' (ri_of cs' ls mn mx pen) in
  ed_batch ed = ed_batch ed' /\ ed_random ed = ed_random ed' /\
  (ed_random ed = false -> Permutation (ed_eliminated ed) (ed_eliminated ed')).
Proof.
  intros P R R' ed ed'.
  destruct (elim_spec o n cs ls mn mx pen ed (rn_min _ _ _ _ _ R) eq_refl) as (_&_&Hc).
  destruct (elim_spec o' n' cs' ls mn mx pen ed' (rn_min _ _ _ _ _ R') eq_refl) as (_&_&Hc').
  cbv zeta in Hc, Hc'.
  assert (Pb := Permutation_filter (fun c => tally ls c =? mn) cs cs' P).
  assert (Lb := Permutation_length Pb). assert (Sb := zsum_tally_perm _ _ ls Pb).
  set (b := filter (fun c => tally ls c =? mn) cs) in *. set (b' := filter (fun c => tally ls c =? mn) cs') in *.
  clearbody ed ed'.
  destruct Hc as [(H1&->)|[(H1&H2&->)|(H1&H2&x&Hx&->)]], Hc' as [(H1'&->)|[(H1'&H2'&->)|(H1'&H2'&x'&Hx'&->)]];
    cbn [ed_batch ed_random ed_eliminated]; try lia; repeat split; auto; discriminate.
Qed.

Lemma trace_det o o' n pa cs ls w rs ms :
  valid_oracle o -> valid_oracle o' -> trace o n pa cs ls w rs ms ->
  (forall k rm, nth_error ms k = Some rm -> (S k < length ms)%nat -> im_random_elim rm = false) ->
  forall pa' cs' w' rs' ms', Permutation cs cs' -> trace o' n pa' cs' ls w' rs' ms' ->
  Permutation w w' /\ Forall2 (@Permutation _) rs rs' /\ Forall2 meta_agree ms ms'.
Proof.
  intros Ho Ho' T. induction T as [n pa cs ls mn mx pen Hn Hne Hl R Hd|n pa cs ls mn mx pen e w rs ms Hn Hne Hl R Hd He T IH];
    intros Hr pa' cs' w' rs' ms' P T'.
  - assert (Hin : forall c, In c cs <-> In c cs') by (intro c; split; [apply Permutation_in; exact P|apply Permutation_in, Permutation_sym; exact P]).
    inversion T' as [n2 pa2 cs2 ls2 mn2 mx2 pen2 Hn2 Hne2 Hl2 R2 Hd2|n2 pa2 cs2 ls2 mn2 mx2 pen2 e2 w2 rs2 ms2 Hn2 Hne2 Hl2 R2 Hd2 He2 T2]; subst;
      destruct (numbers_unique cs cs' ls ls _ _ _ _ _ _ Hin (fun c => eq_refl) R R2) as (<-&<-&<-).
    + split; [apply Permutation_filter; exact P|]. split; [constructor; [apply Permutation_map; exact P|constructor]|].
      constructor; [|constructor]. destruct (elim_agree o o' n n cs cs' ls mn mx pen P R R2) as (Q1&Q2&_).
      unfold meta_agree; cbn. rewrite (zsum_tally_perm cs cs' ls P). repeat (split; [auto|]). exact P.
    + exfalso. apply Hd2. destruct Hd as [Hd|Hd]; [left; exact Hd|right]. rewrite <- (zsum_tally_perm cs cs' ls P). exact Hd.
  - assert (Hin : forall c, In c cs <-> In c cs') by (intro c; split; [apply Permutation_in; exact P|apply Permutation_in, Permutation_sym; exact P]).
    inversion T' as [n2 pa2 cs2 ls2 mn2 mx2 pen2 Hn2 Hne2 Hl2 R2 Hd2|n2 pa2 cs2 ls2 mn2 mx2 pen2 e2 w2 rs2 ms2 Hn2 Hne2 Hl2 R2 Hd2 He2 T2]; subst n2 pa2 cs2 ls2; subst;
      destruct (numbers_unique cs cs' ls ls _ _ _ _ _ _ Hin (fun c => eq_refl) R R2) as (<-&<-&<-).
    + exfalso. apply Hd. destruct Hd2 as [Hd2|Hd2]; [left; exact Hd2|right]. rewrite (zsum_tally_perm cs cs' ls P). exact Hd2.
    + destruct (elim_agree o o' n n cs cs' ls mn mx pen P R R2) as (Q1&Q2&Q3).
      assert (Hnr : ed_random (elim_decision o n (ri_of cs ls mn mx pen)) = false).
      { specialize (Hr 0%nat _ eq_refl). apply Hr. destruct (trace_lengths _ _ _ _ _ _ _ _ T) as [L1 L2].
        cbn [length]. destruct rs; [congruence|]. cbn [length] in L1. lia. }
      specialize (Q3 Hnr).
      set (ed := elim_decision o n (ri_of cs ls mn mx pen)) in *. set (ed' := elim_decision o' n (ri_of cs' ls mn mx pen)) in *.
      assert (Hee : forall c, In c (ed_eliminated ed) <-> In c (ed_eliminated ed')).
      { intro c; split; [apply Permutation_in; exact Q3|apply Permutation_in, Permutation_sym; exact Q3]. }
      assert (Pn : Permutation (o_order o n (set_minus cs (ed_eliminated ed))) (o_order o' n (set_minus cs' (ed_eliminated ed')))).
      { eapply perm_trans; [apply Ho|]. eapply perm_trans; [|apply Permutation_sym, Ho'].
        unfold set_minus. eapply perm_trans; [apply Permutation_filter; exact P|].
        erewrite filter_ext; [apply Permutation_refl|]. intro c. cbv beta. f_equal.
        destruct (memb c (ed_eliminated ed)) eqn:E1, (memb c (ed_eliminated ed')) eqn:E2; auto.
        - apply memb_In, Hee, memb_In in E1. congruence.
        - apply memb_In, Hee, memb_In in E2. congruence. }
      assert (El : map (without (ed_eliminated ed')) (pruned ls) = map (without (ed_eliminated ed)) (pruned ls)).
      { apply map_ext. intro l. symmetry. apply without_ext. exact Hee. }
      rewrite El in T2.
      destruct (IH (fun k rm E L => Hr (S k) rm E (proj1 (Nat.succ_lt_mono _ _) L)) _ _ _ _ _ Pn T2) as (I1&I2&I3).
      split; [exact I1|]. split; [constructor; [apply Permutation_map; exact P|exact I2]|].
      constructor; [|exact I3]. unfold meta_agree; cbn. rewrite (zsum_tally_perm cs cs' ls P). repeat (split; [auto|]). exact P.
Qed.

(** ** Independence of the order of the votelines, for strict ballots *)

Lemma ballots_where_perm p ls ls' : Permutation ls ls' -> ballots_where p ls = ballots_where p ls'.
Proof. intro P. unfold ballots_where. apply zsum_perm, Permutation_map, P. Qed.

Lemma elim_decision_ext o n r r' :
  ri_roundcount r = ri_roundcount r' -> ri_min r = ri_min r' -> ri_penult r = ri_penult r' ->
  elim_decision o n r = elim_decision o n r'.
Proof. intros E1 E2 E3. unfold elim_decision, bottom_cands. rewrite E1, E2, E3. reflexivity. Qed.

Lemma irv_count_perm o fuel n pa cs ls ls' :
  valid_oracle o -> NoDup cs -> cs <> [] -> lines_inv cs ls -> strict_lines ls -> Permutation ls ls' ->
  irv_count fuel o n pa cs ls = irv_count fuel o n pa cs ls'.
Proof.
  intro Ho. revert n pa cs ls ls'. induction fuel as [|f IH]; intros n pa cs ls ls' Hn Hne Hl Hs P; [reflexivity|].
  assert (Hl' : lines_inv cs ls') by (intros l Hll; apply Hl, (Permutation_in _ (Permutation_sym P)), Hll).
  assert (Hs' : strict_lines ls') by (intros l Hll; apply Hs, (Permutation_in _ (Permutation_sym P)), Hll).
  destruct (strict_pruned cs ls Hl Hs) as [Ep Eo]. destruct (strict_pruned cs ls' Hl' Hs') as [Ep' Eo'].
  assert (Et : forall c, tally ls c = tally ls' c) by (intro c; unfold tally; rewrite Ep, Ep'; apply ballots_where_perm; exact P).
  assert (Ex : exhausted ls = exhausted ls') by (unfold exhausted; rewrite Ep, Ep'; apply ballots_where_perm; exact P).
  assert (Eq : zsum (map v_qty ls) = zsum (map v_qty ls')) by (apply zsum_perm, Permutation_map, P).
  cbn [irv_count].
  destruct (irv_round_ok cs ls Hn Hne Hl) as (mn&mx&pen&Er&Hmn&Hmx&Hp).
  destruct (irv_round_ok cs ls' Hn Hne Hl') as (mn'&mx'&pen'&Er'&Hmn'&Hmx'&Hp').
  assert (R : round_numbers cs ls mn mx pen) by (constructor; assumption).
  destruct (numbers_unique cs cs ls ls' mn mx pen mn' mx' pen' (fun c => iff_refl _) Et R) as (<-&<-&<-); [constructor; assumption|].
  rewrite Er, Er'. cbn [bind].
  assert (Ed : dmap cs (tally ls) = dmap cs (tally ls')) by (apply dmap_ext; intros c _; apply Et).
  assert (Ez : zsum (map (tally ls) cs) = zsum (map (tally ls') cs)) by (apply zsum_map_ext; intros c _; apply Et).
  assert (Eed : elim_decision o n (ri_of cs ls mn mx pen) = elim_decision o n (ri_of cs ls' mn mx pen))
    by (apply elim_decision_ext; [exact Ed|reflexivity|reflexivity]).
  assert (Emc : max_cands (ri_of cs ls mn mx pen) = max_cands (ri_of cs ls' mn mx pen))
    by (unfold max_cands; cbn [ri_of ri_roundcount ri_max]; rewrite Ed; reflexivity).
  destruct (elim_facts o n cs ls mn mx pen _ Hn R eq_refl) as (He1&He2&He3&He4&He5).
  rewrite <- Eed, <- Emc.
  set (ed := elim_decision o n (ri_of cs ls mn mx pen)) in *. set (mc := max_cands (ri_of cs ls mn mx pen)). clearbody ed mc.
  cbn [ri_of ri_min ri_max ri_total ri_exhausted ri_overvotes ri_ballotcount ri_penult ri_pruned ri_roundcount].
  rewrite Ed, Ez, Ex, Ep, Ep', Eo, Eo', Eq.
  destruct (Z.eqb_spec mn mx) as [Heq|Hneq]; [reflexivity|].
  destruct (2 * mx >? zsum (map (tally ls') cs)); [reflexivity|].
  rewrite !eliminate_eq by (intros l Hll; first [apply Hl; exact Hll|apply Hl'; exact Hll]).
  rewrite (IH (S n) (Some (all_elim pa ed)) (o_order o n (set_minus cs (ed_eliminated ed)))
              (map (without (ed_eliminated ed)) ls) (map (without (ed_eliminated ed)) ls')); [reflexivity| | | | |].
  - apply (Permutation_NoDup (Permutation_sym (Ho _ _))). apply NoDup_filter; exact Hn.
  - destruct (He5 Hneq) as [c [Hc [Hce _]]]. intro E0.
    assert (Hin : In c (o_order o n (set_minus cs (ed_eliminated ed))))
      by (apply (Permutation_in _ (Permutation_sym (Ho _ _))), set_minus_In; auto).
    rewrite E0 in Hin. destruct Hin.
  - apply (next_lines_inv cs); [exact Hl|]. intros c Hc. apply (Permutation_in _ (Permutation_sym (Ho _ _))). exact Hc.
  - intros l Hll. apply in_map_iff in Hll as [l0 [<- Hl0]]. apply strict_without, Hs, Hl0.
  - apply Permutation_map; exact P.
Qed.

(** ** all_eliminated *)

Lemma set_add_In s c x : In x (set_add s c) <-> In x s \/ x = c.
Proof.
  unfold set_add. destruct (memb c s) eqn:E.
  - apply memb_In in E. split; [auto|intros [H| ->]; assumption].
  - rewrite in_app_iff. cbn. intuition.
Qed.
Lemma set_update_In s cs x : In x (set_update s cs) <-> In x s \/ In x cs.
Proof.
  revert s; induction cs as [|c r IH]; intro s; cbn [set_update fold_left].
  - cbn; tauto.
  - change (fold_left set_add r (set_add s c)) with (set_update (set_add s c) r). rewrite IH, set_add_In. cbn. intuition.
Qed.

Lemma all_elim_In o n cs ls mn mx pen pa x : least (tally ls) cs mn ->
  let ed := elim_decision o n (ri_of cs ls mn mx pen) in
  In x (all_elim pa ed) <->
  (exists s, pa = Some s /\ In x s) \/ (In x (ed_eliminated ed) /\ (pa = None -> ed_batch ed = false)).
Proof.
  intros Hm ed. destruct (elim_spec o n cs ls mn mx pen ed Hm eq_refl) as (_&_&Hc). cbv zeta in Hc. clearbody ed.
  unfold all_elim.
  destruct Hc as [(H1&->)|[(H1&H2&->)|(H1&H2&y&Hy&->)]]; cbn [ed_batch ed_eliminated ed_loserlist];
    destruct pa as [s|]; rewrite ?set_update_In; cbn [In];
    (split; [intro H; repeat (destruct H as [H|H]); try contradiction; subst; eauto 6 | intros [[s' [E H]]|[H H']]]);
    try (apply some_inj in E; subst); try discriminate; try (specialize (H' eq_refl); discriminate); try tauto; auto.
  all: try (right; split; [auto|discriminate]).
Qed.
