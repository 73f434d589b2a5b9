(** * IrvMonotone: what a change of ballots can and cannot do to an IRV count *)

From Verif Require Import PyBase PyFacts Jabmod PairwiseModel Spec PairwiseFacts IrvModel IrvFacts IrvStrict IrvTrace IrvCriteria.
Local Open Scope Z_scope.

(** ** Ballots that agree down to a candidate *)

(** The two ballots put the same candidates above [w], in the same order, and both or neither list [w]. *)
Definition same_down_to (w : str) (l l' : voteline) : Prop :=
  v_qty l = v_qty l' /\ lists l w = lists l' w /\
  (forall c, prefers l c w = prefers l' c w) /\
  (forall c d, prefers l c w = true -> prefers l d w = true -> prefers l c d = prefers l' c d).

Lemma same_down_to_sym w l l' : same_down_to w l l' -> same_down_to w l' l.
Proof.
  intros (H1&H2&H3&H4). split; [auto|]. split; [auto|]. split; [intro c; symmetry; apply H3|].
  intros c d Hc Hd. symmetry. apply H4; rewrite H3; assumption.
Qed.

Lemma prefers_without e l c d :
  prefers (without e l) c d =
  negb (memb c e) && (if memb d e then match rank_on l c with Some _ => true | None => false end else prefers l c d).
Proof.
  unfold prefers. rewrite !rank_on_without. destruct (memb c e), (memb d e); cbn [negb andb]; try reflexivity;
    destruct (rank_on l c); try reflexivity; destruct (rank_on l d); reflexivity.
Qed.

Lemma same_down_to_without w e l l' : ~ In w e -> same_down_to w l l' -> same_down_to w (without e l) (without e l').
Proof.
  intros Hw (H1&H2&H3&H4). apply memb_nIn in Hw. split; [exact H1|]. split.
  - rewrite !lists_without, H2. reflexivity.
  - split.
    + intro c. rewrite !prefers_without, Hw, H3. reflexivity.
    + intros c d Hc Hd. rewrite prefers_without, Hw in Hc, Hd. apply andb_prop in Hc as [Hce Hc]. apply andb_prop in Hd as [Hde Hd].
      apply negb_true_iff in Hce, Hde. rewrite !prefers_without, Hce, Hde. cbn [negb andb]. apply H4; assumption.
Qed.

Lemma rank_lists l c : has_ranks l -> lists l c = match rank_on l c with Some _ => true | None => false end.
Proof.
  intro Hr. unfold lists, rank_on. destruct (dget c (v_prefs l)) as [p|] eqn:E; [|reflexivity].
  apply dget_In in E. specialize (Hr c p E). destruct (p_rank p); [reflexivity|congruence].
Qed.

Lemma same_top w l l' c :
  NoDup (map fst (v_prefs l)) -> has_ranks l -> strict_line big_rank l ->
  NoDup (map fst (v_prefs l')) -> has_ranks l' -> strict_line big_rank l' ->
  same_down_to w l l' -> forall cs, In w cs ->
  top_choice cs l c = true -> top_choice cs l' c = true.
Proof.
  intros Hn Hr Hs Hn' Hr' Hs' (H1&H2&H3&H4) cs Hw Htc. unfold top_choice in *.
  apply andb_prop in Htc as [Htc Hall]. apply andb_prop in Htc as [Hm Hl].
  rewrite forallb_forall in Hall. rewrite Hm. cbn [andb].
  (* those not above w on l' are below it, are it, or are not listed *)
  assert (Below : forall d, prefers l' d w = false -> d = w \/ lists l' w = false /\ rank_on l' d = None \/ prefers l' w d = true).
  { intros d Hd. rewrite (rank_lists l' w Hr'). unfold prefers in *. destruct (rank_on l' d) as [x|] eqn:Ed, (rank_on l' w) as [y|] eqn:Ew; auto.
    destruct (Z.eq_dec x y) as [->|]; [left; apply (proj1 Hs' d w y); assumption|]. right; right. lia. }
  destruct (str_eq_dec c w) as [->|Hne].
  - rewrite <- H2, Hl. cbn [andb]. apply forallb_forall. intros d Hd. specialize (Hall d Hd).
    destruct (str_eqb_spec w d) as [|Hwd]; [reflexivity|]. cbn [orb] in *.
    destruct (Below d) as [E|[[E _]|E]]; [|congruence|congruence|exact E].
    rewrite <- H3. apply prefers_asym. exact Hall.
  - assert (Hcw : prefers l c w = true).
    { specialize (Hall w Hw). destruct (str_eqb_spec c w); [congruence|exact Hall]. }
    assert (Hcw' : prefers l' c w = true) by (rewrite <- H3; exact Hcw).
    assert (Hc' : exists x, rank_on l' c = Some x) by (unfold prefers in Hcw'; destruct (rank_on l' c); [eauto|discriminate]).
    destruct Hc' as [x Ex]. rewrite (rank_lists l' c Hr'), Ex. cbn [andb]. apply forallb_forall. intros d Hd.
    specialize (Hall d Hd). destruct (str_eqb_spec c d) as [|Hcd]; [reflexivity|]. cbn [orb] in *.
    destruct (prefers l d w) eqn:Edw.
    + rewrite <- H4; assumption.
    + rewrite H3 in Edw. destruct (Below d Edw) as [->|[[_ E]|E]]; [exact Hcw'| |].
      * unfold prefers. rewrite Ex, E. reflexivity.
      * unfold prefers in *. rewrite Ex in *. destruct (rank_on l' w) as [y|]; [|discriminate].
        destruct (rank_on l' d) as [z|]; [|reflexivity]. lia.
Qed.

Lemma same_top_eq w l l' cs0 cs c :
  line_ok cs0 l -> has_ranks l -> strict_line big_rank l -> line_ok cs0 l' -> has_ranks l' -> strict_line big_rank l' ->
  same_down_to w l l' -> In w cs -> top_choice cs l c = top_choice cs l' c.
Proof.
  intros [Hn _] Hr Hs [Hn' _] Hr' Hs' H Hw.
  destruct (top_choice cs l c) eqn:E1.
  - symmetry. eapply (same_top w l l'); eauto.
  - destruct (top_choice cs l' c) eqn:E2; [|reflexivity]. rewrite <- E1.
    eapply (same_top w l' l); eauto. apply same_down_to_sym; exact H.
Qed.

Lemma same_nobody w l l' cs :
  has_ranks l -> has_ranks l' -> same_down_to w l l' -> In w cs -> lists_nobody cs l = true -> lists_nobody cs l' = true.
Proof.
  intros Hr Hr' (H1&H2&H3&H4) Hw H. unfold lists_nobody in *. rewrite forallb_forall in *.
  assert (Ew := H w Hw). apply negb_true_iff in Ew. intros c Hc. specialize (H c Hc). apply negb_true_iff in H. apply negb_true_iff.
  rewrite rank_lists in * by assumption. specialize (H3 c). unfold prefers in H3.
  rewrite (rank_lists l') in H2 by assumption. rewrite Ew in H2.
  destruct (rank_on l c); [discriminate|]. destruct (rank_on l' c); [|reflexivity]. destruct (rank_on l' w); discriminate.
Qed.

Lemma ballots_where_rel p q ls ls' :
  Forall2 (fun l l' => v_qty l = v_qty l' /\ p l = q l') ls ls' -> ballots_where p ls = ballots_where q ls'.
Proof.
  unfold ballots_where. induction 1 as [|l l' r r' [E1 E2] H IH]; [reflexivity|]. cbn [map zsum]. cbn [fold_right] in *.
  unfold zsum in *. cbn [fold_right]. rewrite E1, E2, IH. reflexivity.
Qed.

Lemma Forall2_imp {A B} (P Q : A -> B -> Prop) l l' : (forall a b, P a b -> Q a b) -> Forall2 P l l' -> Forall2 Q l l'.
Proof. intros H F. induction F; constructor; auto. Qed.

Lemma Forall2_in {A B} (P : A -> B -> Prop) l l' :
  Forall2 P l l' -> Forall2 (fun a b => In a l /\ In b l' /\ P a b) l l'.
Proof.
  induction 1 as [|a b r r' H F IH]; constructor; [cbn; auto|].
  eapply Forall2_imp; [|exact IH]. intros x y (H1&H2&H3). cbn; auto.
Qed.

Lemma same_count o fuel n pa cs ls ls' w W rs ms :
  valid_oracle o -> NoDup cs -> cs <> [] -> lines_inv cs ls -> lines_inv cs ls' -> strict_lines ls -> strict_lines ls' ->
  (length cs <= fuel)%nat -> Forall2 (same_down_to w) ls ls' ->
  irv_count fuel o n pa cs ls = Ok (W, rs, ms) -> In w W -> irv_count fuel o n pa cs ls' = Ok (W, rs, ms).
Proof.
  intros Ho. revert n pa cs ls ls' rs ms.
  induction fuel as [|f IH]; intros n pa cs ls ls' rs ms Hn Hne Hl Hl' Hs Hs' Hf F E Hw; [discriminate|].
  assert (Hwcs : In w cs).
  { destruct (irv_trace o (S f) n pa cs ls Ho Hn Hne Hl Hf) as (W0&rs0&ms0&E0&T0).
    rewrite E in E0. apply ok_inj in E0. injection E0 as <- <- <-.
    destruct (trace_winner _ _ _ _ _ _ _ _ Ho T0) as (_&_&Hi). apply Hi; exact Hw. }
  destruct (strict_tally cs ls [] cs ls (strict_init cs ls Hl Hs) Hl) as (Ep&Eo&Et1&Ex1).
  destruct (strict_tally cs ls' [] cs ls' (strict_init cs ls' Hl' Hs') Hl') as (Ep'&Eo'&Et2&Ex2).
  assert (F' := Forall2_in _ _ _ F).
  assert (Et : forall c, tally ls c = tally ls' c).
  { intro c. rewrite Et1, Et2. apply ballots_where_rel. eapply Forall2_imp; [|exact F'].
    intros l l' (I1&I2&H). split; [apply H|]. destruct (Hl l I1), (Hl' l' I2). eapply (same_top_eq w l l' cs); eauto. }
  assert (Ex : exhausted ls = exhausted ls').
  { rewrite Ex1, Ex2. apply ballots_where_rel. eapply Forall2_imp; [|exact F'].
    intros l l' (I1&I2&H). split; [apply H|]. destruct (Hl l I1), (Hl' l' I2).
    destruct (lists_nobody cs l) eqn:N1; [symmetry; eapply (same_nobody w l l'); eauto|].
    destruct (lists_nobody cs l') eqn:N2; [|reflexivity]. rewrite <- N1. eapply (same_nobody w l' l); eauto.
    apply same_down_to_sym; exact H. }
  assert (Eq : zsum (map v_qty ls) = zsum (map v_qty ls')).
  { f_equal. clear -F. induction F as [|l l' r r' H F IH]; [reflexivity|]. cbn [map]. rewrite IH. f_equal. apply H. }
  cbn [irv_count] in *.
  destruct (irv_round_ok cs ls Hn Hne Hl) as (mn&mx&pen&Er&Hmn&Hmx&Hp).
  destruct (irv_round_ok cs ls' Hn Hne Hl') as (mn'&mx'&pen'&Er'&Hmn'&Hmx'&Hp').
  assert (R : round_numbers cs ls mn mx pen) by (constructor; assumption).
  destruct (numbers_unique cs cs ls ls' mn mx pen mn' mx' pen' (fun c => iff_refl _) Et R) as (<-&<-&<-); [constructor; assumption|].
  rewrite Er in E. rewrite Er'. cbn [bind] in *.
  assert (Ed : dmap cs (tally ls) = dmap cs (tally ls')) by (apply dmap_ext; intros c _; apply Et).
  assert (Ez : zsum (map (tally ls) cs) = zsum (map (tally ls') cs)) by (apply zsum_map_ext; intros c _; apply Et).
  assert (Eed : elim_decision o n (ri_of cs ls mn mx pen) = elim_decision o n (ri_of cs ls' mn mx pen))
    by (apply elim_decision_ext; [exact Ed|reflexivity|reflexivity]).
  assert (Emc : max_cands (ri_of cs ls mn mx pen) = max_cands (ri_of cs ls' mn mx pen))
    by (unfold max_cands; cbn [ri_of ri_roundcount ri_max]; rewrite Ed; reflexivity).
  destruct (elim_facts o n cs ls mn mx pen _ Hn R eq_refl) as (He1&He2&He3&He4&He5).
  rewrite <- Eed, <- Emc.
  set (ed := elim_decision o n (ri_of cs ls mn mx pen)) in *. set (mc := max_cands (ri_of cs ls mn mx pen)) in *. clearbody ed mc.
  cbn [ri_of ri_min ri_max ri_total ri_exhausted ri_overvotes ri_ballotcount ri_penult ri_pruned ri_roundcount] in *.
  rewrite Ep, Eo in E. rewrite Ep', Eo', <- Ed, <- Ez, <- Ex, <- Eq.
  destruct (Z.eqb_spec mn mx) as [Heq|Hneq]; [exact E|].
  destruct (2 * mx >? zsum (map (tally ls) cs)); [exact E|].
  rewrite eliminate_eq in E by (intros l Hll; apply Hl; exact Hll).
  rewrite eliminate_eq by (intros l Hll; apply Hl'; exact Hll).
  destruct (irv_count f o (S n) (Some (all_elim pa ed)) (o_order o n (set_minus cs (ed_eliminated ed)))
              (map (without (ed_eliminated ed)) ls)) as [[[W1 rs1] ms1]|] eqn:E1; [|discriminate].
  cbn [bind] in E. apply ok_inj in E. injection E as <- <- <-.
  assert (P := Ho n (set_minus cs (ed_eliminated ed))).
  assert (HnN : NoDup (o_order o n (set_minus cs (ed_eliminated ed))))
    by (apply (Permutation_NoDup (Permutation_sym P)), NoDup_filter; exact Hn).
  assert (HneN : o_order o n (set_minus cs (ed_eliminated ed)) <> []).
  { destruct (He5 Hneq) as [c [Hc [Hce _]]]. intro E0.
    assert (Hin : In c (o_order o n (set_minus cs (ed_eliminated ed))))
      by (apply (Permutation_in _ (Permutation_sym P)), set_minus_In; auto).
    rewrite E0 in Hin. destruct Hin. }
  assert (HlN : forall x, lines_inv cs x -> lines_inv (o_order o n (set_minus cs (ed_eliminated ed))) (map (without (ed_eliminated ed)) x)).
  { intros x Hx. apply (next_lines_inv cs); [exact Hx|]. intros c Hc. apply (Permutation_in _ (Permutation_sym P)). exact Hc. }
  assert (HsN : forall x, strict_lines x -> strict_lines (map (without (ed_eliminated ed)) x)).
  { intros x Hx l Hll. apply in_map_iff in Hll as [l0 [<- Hl0]]. apply strict_without, Hx, Hl0. }
  assert (HfN : (length (o_order o n (set_minus cs (ed_eliminated ed))) <= f)%nat).
  { rewrite (Permutation_length P). destruct (ed_eliminated ed) as [|x e']; [congruence|].
    pose proof (set_minus_length cs (x :: e') x Hn (or_introl eq_refl) (He3 x (or_introl eq_refl))). lia. }
  assert (Hwe : ~ In w (ed_eliminated ed)).
  { destruct (irv_trace o f (S n) (Some (all_elim pa ed)) _ _ Ho HnN HneN (HlN ls Hl) HfN) as (W0&rs0&ms0&E0&T0).
    rewrite E1 in E0. apply ok_inj in E0. injection E0 as <- <- <-.
    destruct (trace_winner _ _ _ _ _ _ _ _ Ho T0) as (_&_&Hi). apply Hi in Hw.
    apply (Permutation_in _ P), set_minus_In in Hw as [_ Hw]. exact Hw. }
  rewrite (IH (S n) (Some (all_elim pa ed)) _ (map (without (ed_eliminated ed)) ls) (map (without (ed_eliminated ed)) ls') rs1 ms1);
    auto.
  clear -F Hwe. induction F as [|l l' r r' H F IH]; constructor; [|exact IH]. apply same_down_to_without; assumption.
Qed.

(** ** More ballots with the winner in first place *)

(** The ballot lists [w] and ranks it above everybody else. *)
Definition ranks_first (w : str) (l : voteline) : Prop :=
  lists l w = true /\ forall c, c = w \/ prefers l w c = true.

Lemma ranks_first_without w e l : ~ In w e -> ranks_first w l -> ranks_first w (without e l).
Proof.
  intros Hw [Hl H]. apply memb_nIn in Hw. split; [rewrite lists_without, Hw, Hl; reflexivity|].
  intro c. destruct (H c) as [->|Hc]; [left; reflexivity|right].
  rewrite prefers_without, Hw. cbn [negb andb]. destruct (memb c e); [|exact Hc].
  unfold prefers in Hc. destruct (rank_on l w); [reflexivity|discriminate].
Qed.

Lemma ranks_first_top w cs l c : In w cs -> ranks_first w l -> top_choice cs l c = str_eqb c w.
Proof.
  intros Hw [Hl H]. unfold top_choice. destruct (str_eqb_spec c w) as [->|Hne].
  - rewrite (proj2 (memb_In _ _) Hw), Hl. cbn [andb]. apply forallb_forall. intros d Hd.
    destruct (str_eqb_spec w d) as [|Hwd]; [reflexivity|]. cbn [orb]. destruct (H d) as [->|E]; [congruence|exact E].
  - apply andb_false_iff. right. destruct (forallb _ cs) eqn:E; [|reflexivity]. rewrite forallb_forall in E.
    specialize (E w Hw). destruct (str_eqb_spec c w); [congruence|]. cbn [orb] in E.
    destruct (H c) as [->|Hc]; [congruence|]. rewrite (prefers_asym _ _ _ Hc) in E. discriminate.
Qed.

Lemma ballots_where_app p a b : ballots_where p (a ++ b) = ballots_where p a + ballots_where p b.
Proof. unfold ballots_where. rewrite map_app. apply zsum_app. Qed.

Definition bump (w : str) (x : Z) (c : str) : Z := if str_eqb c w then x else 0.

Lemma zsum_bump cs w x (f : str -> Z) : NoDup cs -> In w cs ->
  zsum (map (fun c => f c + bump w x c) cs) = zsum (map f cs) + x.
Proof.
  intros Hn Hw. rewrite zsum_map_add. f_equal. transitivity (zsum (map (fun c => if str_eqb w c then x else 0) cs)).
  - apply zsum_map_ext. intros c _. unfold bump. rewrite (str_eqb_sym c w). reflexivity.
  - apply (zsum_single w (fun _ => x) cs Hn Hw).
Qed.

Lemma filter_singleton {A} (p : A -> bool) cs w :
  NoDup cs -> In w cs -> p w = true -> (forall c, In c cs -> p c = true -> c = w) -> filter p cs = [w].
Proof.
  intros Hn Hw Hp Hu. assert (Hn' := NoDup_filter p Hn).
  assert (Hin : forall c, In c (filter p cs) <-> c = w).
  { intro c. rewrite filter_In. split; [intros []; auto|intros ->; auto]. }
  destruct (filter p cs) as [|a [|b r]].
  - exfalso. apply (proj2 (Hin w) eq_refl).
  - f_equal. apply Hin. left; reflexivity.
  - exfalso. inversion Hn' as [|? ? Hni _]; subst. apply Hni. left.
    rewrite (proj1 (Hin a)), (proj1 (Hin b)); [reflexivity|right; left; reflexivity|left; reflexivity].
Qed.

(** The extra ballots: well-formed, strict, [w] first, no negative number of them. *)
Definition extra_for (w : str) (cs : list str) (ex : list voteline) : Prop :=
  lines_inv cs ex /\ strict_lines ex /\ forall l, In l ex -> ranks_first w l /\ 0 <= v_qty l.

Lemma extra_tally w cs ls ex : In w cs -> lines_inv cs ls -> strict_lines ls -> extra_for w cs ex ->
  exists x, 0 <= x /\ lines_inv cs (ls ++ ex) /\ strict_lines (ls ++ ex) /\
    forall c, tally (ls ++ ex) c = tally ls c + bump w x c.
Proof.
  intros Hw Hl Hs (Hlx&Hsx&Hx).
  assert (Hl' : lines_inv cs (ls ++ ex)) by (intros l Hll; apply in_app_or in Hll as [Hll|Hll]; auto).
  assert (Hs' : strict_lines (ls ++ ex)) by (intros l Hll; apply in_app_or in Hll as [Hll|Hll]; auto).
  exists (zsum (map v_qty ex)). split.
  { clear -Hx. induction ex as [|l r IH]; [cbn; lia|]. cbn [map]. destruct (Hx l (or_introl eq_refl)) as [_ ?].
    assert (0 <= zsum (map v_qty r)) by (apply IH; intros; apply Hx; right; assumption).
    unfold zsum in *. cbn [fold_right]. lia. }
  split; [exact Hl'|]. split; [exact Hs'|]. intro c.
  destruct (strict_tally cs ls [] cs ls (strict_init cs ls Hl Hs) Hl) as (_&_&E1&_).
  destruct (strict_tally cs (ls ++ ex) [] cs (ls ++ ex) (strict_init cs _ Hl' Hs') Hl') as (_&_&E2&_).
  rewrite E1, E2, ballots_where_app. f_equal. unfold ballots_where, bump.
  destruct (str_eqb c w) eqn:Ecw.
  - apply zsum_map_ext. intros l Hll. rewrite (ranks_first_top w); [rewrite Ecw; reflexivity|exact Hw|apply Hx; exact Hll].
  - apply zsum_map_0. intros l Hll. rewrite (ranks_first_top w); [rewrite Ecw; reflexivity|exact Hw|apply Hx; exact Hll].
Qed.

Lemma extra_pruned cs ls ex : lines_inv cs ls -> strict_lines ls -> lines_inv cs (ls ++ ex) -> strict_lines (ls ++ ex) ->
  pruned (ls ++ ex) = pruned ls ++ ex.
Proof.
  intros Hl Hs Hl' Hs'. destruct (strict_pruned cs ls Hl Hs) as [-> _]. apply (strict_pruned cs (ls ++ ex) Hl' Hs').
Qed.

Lemma add_top_trace o n pa cs ls w rs ms :
  valid_oracle o -> trace o n pa cs ls [w] rs ms -> strict_lines ls ->
  (forall k rm, nth_error ms k = Some rm -> (S k < length ms)%nat -> im_bottomtie rm = None) ->
  forall ex pa' w' rs' ms', extra_for w cs ex -> trace o n pa' cs (ls ++ ex) w' rs' ms' -> w' = [w].
Proof.
  intros Ho T. remember [w] as W eqn:EW.
  induction T as [n pa cs ls mn mx pen Hn Hne Hl R Hd|n pa cs ls mn mx pen e W rs ms Hn Hne Hl R Hd He T IH];
    intros Hs Hr ex pa' w' rs' ms' Hx T'.
  - (* the last round of the smaller election *)
    assert (Hi : In w (filter (fun c => tally ls c =? mx) cs)) by (rewrite EW; left; reflexivity).
    apply filter_In in Hi as [Hwcs Hwmx].
    assert (Hu : forall c, In c cs -> tally ls c = mx -> c = w).
    { intros c Hc Ec. assert (Hi : In c (filter (fun c => tally ls c =? mx) cs)) by (apply filter_In; split; [exact Hc|lia]).
      rewrite EW in Hi. destruct Hi as [->|[]]. reflexivity. }
    destruct (extra_tally w cs ls ex Hwcs Hl Hs Hx) as (x&Hx0&Hl'&Hs'&Et).
    assert (Ez : zsum (map (tally (ls ++ ex)) cs) = zsum (map (tally ls) cs) + x).
    { rewrite <- (zsum_bump cs w x (tally ls) Hn Hwcs). apply zsum_map_ext. intros c _. apply Et. }
    assert (Hmx : forall c, In c cs -> c <> w -> tally (ls ++ ex) c < tally (ls ++ ex) w).
    { intros c Hc Hcw. rewrite !Et. unfold bump. rewrite str_eqb_refl. destruct (str_eqb_spec c w); [congruence|].
      assert (tally ls c <= mx) by (apply (rn_max _ _ _ _ _ R); exact Hc).
      assert (tally ls c <> mx) by (intro Ec; apply Hcw, Hu; assumption). lia. }
    assert (Hfin : forall mx', greatest (tally (ls ++ ex)) cs mx' -> filter (fun c => tally (ls ++ ex) c =? mx') cs = [w] /\ mx' = mx + x).
    { intros mx' [[a [Ha Ea]] Hg]. assert (Em : mx' = tally (ls ++ ex) w).
      { specialize (Hg w Hwcs). destruct (str_eq_dec a w) as [->|Hne']; [auto|]. specialize (Hmx a Ha Hne'). lia. }
      split; [|rewrite Em, Et; unfold bump; rewrite str_eqb_refl; lia].
      apply filter_singleton; [exact Hn|exact Hwcs|lia|]. intros c Hc Ec.
      destruct (str_eq_dec c w) as [|Hne']; [assumption|]. specialize (Hmx c Hc Hne'). lia. }
    inversion T' as [n2 pa2 cs2 ls2 mn2 mx2 pen2 Hn2 Hne2 Hl2 R2 Hd2|n2 pa2 cs2 ls2 mn2 mx2 pen2 e2 w2 rs2 ms2 Hn2 Hne2 Hl2 R2 Hd2 He2 T2]; subst n2 pa2 cs2 ls2.
    + subst w'. rewrite EW. apply (Hfin mx2 (rn_max _ _ _ _ _ R2)).
    + exfalso. apply Hd2. destruct (Hfin mx2 (rn_max _ _ _ _ _ R2)) as [_ Em]. unfold decided in *. rewrite Ez.
      destruct Hd as [Hd|Hd]; [|right; lia]. left.
      (* everybody ties, so w is alone *)
      assert (Hall : forall c, In c cs -> c = w).
      { intros c Hc. apply Hu; [exact Hc|]. assert (H1 := proj2 (rn_min _ _ _ _ _ R) c Hc).
        assert (H2 := proj2 (rn_max _ _ _ _ _ R) c Hc). lia. }
      destruct (rn_min _ _ _ _ _ R2) as [[c1 [Hc1 Ec1]] _]. destruct (rn_max _ _ _ _ _ R2) as [[c2 [Hc2 Ec2]] _].
      rewrite (Hall c1 Hc1) in Ec1. rewrite (Hall c2 Hc2) in Ec2. congruence.
  - (* a round in which one candidate goes *)
    subst W.
    assert (Hwcs : In w (set_minus cs e)).
    { destruct (trace_winner _ _ _ _ _ _ _ _ Ho T) as (_&_&Hi). specialize (Hi w (or_introl eq_refl)).
      apply (Permutation_in _ (Ho n _)) in Hi. exact Hi. }
    apply set_minus_In in Hwcs as [Hwcs Hwe].
    destruct (extra_tally w cs ls ex Hwcs Hl Hs Hx) as (x&Hx0&Hl'&Hs'&Et).
    assert (Ez : zsum (map (tally (ls ++ ex)) cs) = zsum (map (tally ls) cs) + x).
    { rewrite <- (zsum_bump cs w x (tally ls) Hn Hwcs). apply zsum_map_ext. intros c _. apply Et. }
    assert (Hnb : ed_bottomtie (elim_decision o n (ri_of cs ls mn mx pen)) = None).
    { specialize (Hr 0%nat _ eq_refl). apply Hr. destruct (trace_lengths _ _ _ _ _ _ _ _ T) as [L1 L2].
      cbn [length]. destruct rs; [congruence|]. cbn [length] in L1. lia. }
    destruct (elim_spec o n cs ls mn mx pen _ (rn_min _ _ _ _ _ R) eq_refl) as (_&_&Hc). cbv zeta in Hc.
    assert (Hb : filter (fun c => tally ls c =? mn) cs = e /\ length e = 1%nat).
    { destruct Hc as [(H1&E1)|[(H1&H2&E1)|(H1&H2&y&Hy&E1)]]; rewrite E1 in Hnb, He; cbn in Hnb, He; try discriminate.
      rewrite He. split; [reflexivity|exact H1]. }
    destruct Hb as [Hb Hlen]. destruct e as [|c0 [|c1 r]]; cbn [length] in Hlen; try lia. clear Hlen.
    assert (Hc0 : In c0 cs /\ tally ls c0 = mn).
    { assert (Hi : In c0 (filter (fun c => tally ls c =? mn) cs)) by (rewrite Hb; left; reflexivity).
      apply filter_In in Hi as [Hi Hi2]. split; [exact Hi|lia]. }
    assert (Hmin : forall c, In c cs -> c <> c0 -> mn < tally ls c).
    { intros c Hcc Hne'. assert (H1 := proj2 (rn_min _ _ _ _ _ R) c Hcc).
      destruct (Z.eq_dec (tally ls c) mn) as [Ec|]; [exfalso|lia].
      assert (Hi : In c (filter (fun c => tally ls c =? mn) cs)) by (apply filter_In; split; [exact Hcc|lia]).
      rewrite Hb in Hi. destruct Hi as [->|[]]. congruence. }
    assert (Hc0w : c0 <> w) by (intros ->; apply Hwe; left; reflexivity).
    assert (Ec0 : tally (ls ++ ex) c0 = mn).
    { rewrite Et. unfold bump. destruct (str_eqb_spec c0 w); [congruence|]. lia. }
    assert (Hge : forall c, tally ls c <= tally (ls ++ ex) c) by (intro c; rewrite Et; unfold bump; destruct (str_eqb c w); lia).
    assert (Hmin' : forall c, In c cs -> c <> c0 -> mn < tally (ls ++ ex) c).
    { intros c Hcc Hne'. specialize (Hmin c Hcc Hne'). specialize (Hge c). lia. }
    inversion T' as [n2 pa2 cs2 ls2 mn2 mx2 pen2 Hn2 Hne2 Hl2 R2 Hd2|n2 pa2 cs2 ls2 mn2 mx2 pen2 e2 w2 rs2 ms2 Hn2 Hne2 Hl2 R2 Hd2 He2 T2]; subst n2 pa2 cs2 ls2.
    + (* w reaches a majority early *)
      assert (Hmn : mn2 = mn).
      { destruct (rn_min _ _ _ _ _ R2) as [[a [Ha Ea]] Hg]. specialize (Hg c0 (proj1 Hc0)).
        destruct (str_eq_dec a c0) as [->|Hne']; [congruence|]. specialize (Hmin' a Ha Hne'). lia. }
      subst w'.       destruct (rn_max _ _ _ _ _ R2) as [[a [Ha Ea]] Hg].
      assert (Hwgt : mn < tally (ls ++ ex) w) by (apply Hmin'; auto).
      assert (Hmaj : 2 * mx2 > zsum (map (tally (ls ++ ex)) cs)).
      { destruct Hd2 as [Hd2|Hd2]; [specialize (Hg w Hwcs)|]; lia. }
      assert (Hnot : forall c, In c cs -> c <> w -> tally (ls ++ ex) c <> mx2).
      { intros c Hcc Hcw Ec. apply Hd. right. rewrite Ez in Hmaj.
        rewrite Et in Ec. unfold bump in Ec. destruct (str_eqb_spec c w); [congruence|].
        assert (H1 := proj2 (rn_max _ _ _ _ _ R) c Hcc). lia. }
      assert (a = w) by (destruct (str_eq_dec a w); [assumption|]; exfalso; apply (Hnot a); assumption). subst a.
      apply filter_singleton; [exact Hn|exact Hwcs|lia|]. intros c Hcc Ec.
      destruct (str_eq_dec c w) as [|Hne']; [assumption|]. exfalso. apply (Hnot c Hcc Hne'). lia.
    + assert (Hmn : mn2 = mn).
      { destruct (rn_min _ _ _ _ _ R2) as [[a [Ha Ea]] Hg]. specialize (Hg c0 (proj1 Hc0)).
        destruct (str_eq_dec a c0) as [->|Hne']; [congruence|]. specialize (Hmin' a Ha Hne'). lia. }
      assert (Hb2 : filter (fun c => tally (ls ++ ex) c =? mn2) cs = [c0]).
      { apply filter_singleton; [exact Hn|apply Hc0|lia|]. intros c Hcc Ec.
        destruct (str_eq_dec c c0) as [|Hne']; [assumption|]. specialize (Hmin' c Hcc Hne'). lia. }
      assert (E2 : e2 = [c0]).
      { destruct (elim_spec o n cs (ls ++ ex) mn2 mx2 pen2 _ (rn_min _ _ _ _ _ R2) eq_refl) as (_&_&Hc2). cbv zeta in Hc2.
        rewrite Hb2 in Hc2. cbn [length] in Hc2. rewrite He2. destruct Hc2 as [(_&->)|[(H1&_)|(H1&_)]]; [reflexivity|lia|lia]. }
      subst e2. rewrite E2 in T2.
      rewrite (extra_pruned cs ls ex Hl Hs Hl' Hs'), map_app in T2.
      assert (Hp : pruned ls = ls) by apply (strict_pruned cs ls Hl Hs).
      eapply (IH eq_refl); [ | | |exact T2].
      * intros l Hll. rewrite Hp in Hll. apply in_map_iff in Hll as [l0 [<- Hl0]]. apply strict_without, Hs, Hl0.
      * intros k rm E L. apply (Hr (S k) rm E). cbn [length]. lia.
      * destruct Hx as (Hlx&Hsx&Hx). split; [|split].
        -- apply (next_lines_inv cs); [exact Hlx|]. intros c Hcc. apply (Permutation_in _ (Permutation_sym (Ho _ _))). exact Hcc.
        -- intros l Hll. apply in_map_iff in Hll as [l0 [<- Hl0]]. apply strict_without, Hsx, Hl0.
        -- intros l Hll. apply in_map_iff in Hll as [l0 [<- Hl0]]. destruct (Hx l0 Hl0) as [H1 H2].
           split; [apply ranks_first_without; assumption|exact H2].
Qed.
