(** * PropsWithdraw: C92, candidates who are out might as well not have run *)

From Coq Require Import Lia Permutation.
From Verif Require Import PyBase PyFacts Jabmod PairwiseModel Spec PairwiseFacts IrvModel IrvFacts IrvStrict IrvTrace IrvCriteria PropsPairwise PropsIrv.
Local Open Scope Z_scope.

(** ** Specification *)
(** The election with only the candidates in [keep]: the others are struck from the list of candidates and from every ballot. *)
Definition only (keep : list str) (m : jabmod) : jabmod :=
  Jabmod (j_metadata m) (filter (fun kv => memb (fst kv) keep) (j_candidates m))
    (map (fun l => with_prefs l (filter (fun kv => memb (fst kv) keep) (v_prefs l))) (j_votelines m)).

Lemma F2_length {X Y} (R : X -> Y -> Prop) l l' : Forall2 R l l' -> length l = length l'.
Proof. intro F. induction F; cbn; congruence. Qed.

(** ** The same count with another schedule *)
Lemma elim_decision_choice o o' n r : o_choice o n = o_choice o' n -> elim_decision o n r = elim_decision o' n r.
Proof. intro H. unfold elim_decision. rewrite H. reflexivity. Qed.
Lemma elim_decision_number o o' n n' r : o_choice o n = o_choice o' n' -> elim_decision o n r = elim_decision o' n' r.
Proof. intro H. unfold elim_decision. rewrite H. reflexivity. Qed.
Lemma trace_ext o o' n pa cs ls w rs ms : trace o n pa cs ls w rs ms ->
  (forall k, (n <= k)%nat -> o_choice o k = o_choice o' k /\ forall l, o_order o k l = o_order o' k l) -> trace o' n pa cs ls w rs ms.
Proof.
  intro T. induction T as [n pa cs ls mn mx pen Hn Hne Hl R Hd|n pa cs ls mn mx pen e w rs ms Hn Hne Hl R Hd He T IH]; intro H.
  - rewrite (elim_decision_choice o o' n _ (proj1 (H n (Nat.le_refl n)))). apply trace_final; assumption.
  - rewrite (elim_decision_choice o o' n _ (proj1 (H n (Nat.le_refl n)))) in *. apply trace_next; try assumption. rewrite <- (proj2 (H n (Nat.le_refl n))).
    apply IH. intros k Hk. apply H. lia.
Qed.
Lemma least_perm f cs cs' x : (forall c, In c cs <-> In c cs') -> least f cs x -> least f cs' x.
Proof. intros H [(c&Hc&E) Hl]. split; [exists c; split; [apply H, Hc|exact E]|intros d Hd; apply Hl, H, Hd]. Qed.
Lemma greatest_perm f cs cs' x : (forall c, In c cs <-> In c cs') -> greatest f cs x -> greatest f cs' x.
Proof. intros H [(c&Hc&E) Hl]. split; [exists c; split; [apply H, Hc|exact E]|intros d Hd; apply Hl, H, Hd]. Qed.
Lemma perm_same (cs cs' : list str) : Permutation cs cs' -> forall c, In c cs <-> In c cs'.
Proof. intros P c. split; [apply Permutation_in; exact P|apply Permutation_in, Permutation_sym; exact P]. Qed.
Lemma numbers_perm cs cs' ls mn mx pen : Permutation cs cs' -> round_numbers cs ls mn mx pen -> round_numbers cs' ls mn mx pen.
Proof.
  intros P [R1 R2 [R3 R4]]. pose proof (perm_same _ _ P) as H. constructor; [exact (least_perm _ _ _ _ H R1)|exact (greatest_perm _ _ _ _ H R2)|].
  split; [exact R3|]. intro Hne. apply (least_perm _ (filter (fun c => tally ls c >? mn) cs)); [|apply R4, Hne]. intro c. rewrite !filter_In, H. tauto.
Qed.
Lemma lines_perm cs cs' ls : Permutation cs cs' -> lines_inv cs ls -> lines_inv cs' ls.
Proof.
  intros P H l Hl. destruct (H l Hl) as [[H1 H2] H3]. split; [split; [exact H1|]|exact H3]. intros c Hc. apply (Permutation_in _ P), H2, Hc.
Qed.
Lemma decided_perm cs cs' ls mn mx : Permutation cs cs' -> decided cs ls mn mx -> decided cs' ls mn mx.
Proof. intros P [H|H]; [left; exact H|right]. rewrite <- (zsum_tally_perm cs cs' ls P). exact H. Qed.

(** random.choice can return any of the tied candidates *)
Lemma elim_pick o n cs ls mn mx pen k x : least (tally ls) cs mn ->
  let bottom := filter (fun c => tally ls c =? mn) cs in
  (1 < length bottom)%nat -> pen < zsum (map (tally ls) bottom) -> nth_error bottom k = Some x -> o_choice o n = k ->
  elim_decision o n (ri_of cs ls mn mx pen) = ElimDec (Some bottom) false true [x] (Some [x]).
Proof.
  intros Hm bottom Hl Hp Hk Ho. destruct (elim_spec o n cs ls mn mx pen _ Hm eq_refl) as (Eb&_&_). fold bottom in Eb.
  unfold elim_decision. rewrite Eb. cbn [ri_of ri_roundcount ri_penult].
  assert (Es : zsum (map (fun c => match dget c (dmap cs (tally ls)) with Some v => v | None => 0 end) bottom) = zsum (map (tally ls) bottom)).
  { apply zsum_map_ext. intros c Hcb. rewrite dget_dmap. unfold bottom in Hcb. apply filter_In in Hcb as [Hcb _]. rewrite (proj2 (memb_In _ _) Hcb). reflexivity. }
  rewrite Es. rewrite (proj2 (Nat.ltb_lt _ _) Hl), (proj2 (Z.leb_gt _ _) Hp), Ho.
  assert (Hlt : (k < length bottom)%nat) by (apply nth_error_Some; congruence). rewrite Nat.mod_small by exact Hlt. rewrite (nth_error_nth _ _ _ Hk). reflexivity.
Qed.
Lemma same_elim cs cs' ls e e' : Permutation cs cs' -> Permutation e e' -> Permutation (set_minus cs e) (set_minus cs' e') /\ map (without e') (pruned ls) = map (without e) (pruned ls).
Proof.
  intros P Q. pose proof (perm_same _ _ Q) as H. split.
  - unfold set_minus. eapply perm_trans; [apply Permutation_filter; exact P|]. erewrite filter_ext; [apply Permutation_refl|]. intro c. cbv beta. f_equal.
    destruct (memb c e) eqn:E1, (memb c e') eqn:E2; auto.
    + apply memb_In, H, memb_In in E1. congruence.
    + apply memb_In, H, memb_In in E2. congruence.
  - apply map_ext. intro l. symmetry. apply without_ext. exact H.
Qed.

(** From the same situation, with the candidates in another order and the rounds numbered otherwise, there is a schedule with the same course. *)
Lemma trace_again o n pa cs ls w rs ms : valid_oracle o -> trace o n pa cs ls w rs ms ->
  forall n' pa' cs', Permutation cs cs' ->
  exists o' w' rs' ms', valid_oracle o' /\ trace o' n' pa' cs' ls w' rs' ms' /\ Permutation w w' /\ Forall2 (@Permutation _) rs rs' /\
    Forall2 (fun rm rm' => im_random_elim rm = im_random_elim rm' /\ im_batch_elim rm = im_batch_elim rm' /\ im_exhaustedqty rm = im_exhaustedqty rm') ms ms'.
Proof.
  intros Ho T. induction T as [n pa cs ls mn mx pen Hn Hne Hl R Hd|n pa cs ls mn mx pen e w rs ms Hn Hne Hl R Hd He T IH]; intros n' pa' cs' P.
  - exists o. do 3 eexists. split; [exact Ho|]. split; [|split; [|split]].
    + apply trace_final; [exact (Permutation_NoDup P Hn)| |exact (lines_perm _ _ _ P Hl)|exact (numbers_perm _ _ _ _ _ _ P R)|exact (decided_perm _ _ _ _ _ P Hd)].
      intro E. rewrite E in P. apply Permutation_sym, Permutation_nil in P. contradiction.
    + apply Permutation_filter, P.
    + constructor; [apply Permutation_map, P|constructor].
    + constructor; [|constructor]. destruct (elim_agree o o n n' cs cs' ls mn mx pen P R (numbers_perm _ _ _ _ _ _ P R)) as (Q1&Q2&_). cbn. repeat split; assumption.
  - pose proof (numbers_perm _ _ _ _ _ _ P R) as R'. pose proof (rn_min _ _ _ _ _ R) as Rm. pose proof (rn_min _ _ _ _ _ R') as Rm'.
    set (bottom := filter (fun c => tally ls c =? mn) cs). set (bottom' := filter (fun c => tally ls c =? mn) cs').
    assert (Pb : Permutation bottom bottom') by (apply Permutation_filter, P).
    assert (K : exists k, forall o', o_choice o' n' = k ->
      Permutation e (ed_eliminated (elim_decision o' n' (ri_of cs' ls mn mx pen)))
      /\ ed_random (elim_decision o n (ri_of cs ls mn mx pen)) = ed_random (elim_decision o' n' (ri_of cs' ls mn mx pen))
      /\ ed_batch (elim_decision o n (ri_of cs ls mn mx pen)) = ed_batch (elim_decision o' n' (ri_of cs' ls mn mx pen))).
    { destruct (ed_random (elim_decision o n (ri_of cs ls mn mx pen))) eqn:Er.
      - destruct (elim_spec o n cs ls mn mx pen _ Rm eq_refl) as (_&_&[(_&E)|[(_&_&E)|(L&S1&x&Hx&E)]]); [rewrite E in Er; discriminate Er|rewrite E in Er; discriminate Er|].
        fold bottom in L, S1, Hx, E. destruct (In_nth_error bottom' x (Permutation_in _ Pb Hx)) as (k&Hk). exists k. intros o' Ho'.
        assert (S2 : pen < zsum (map (tally ls) bottom')) by (rewrite <- (zsum_perm _ _ (Permutation_map (tally ls) Pb)); exact S1).
        assert (L' : (1 < length bottom')%nat) by (rewrite <- (Permutation_length Pb); exact L).
        rewrite (elim_pick o' n' cs' ls mn mx pen k x Rm' L' S2 Hk Ho'). rewrite He, E. split; [apply Permutation_refl|]. split; reflexivity.
      - exists O. intros o' _. destruct (elim_agree o o' n n' cs cs' ls mn mx pen P R R') as (Q1&Q2&Q3). rewrite He. split; [apply Q3, Er|]. split; [congruence|exact Q1]. }
    destruct K as (k&K). set (o1 := Oracle (fun _ => k) (fun _ l => l)).
    destruct (K o1 eq_refl) as (K1&K2&K3). set (ed1 := elim_decision o1 n' (ri_of cs' ls mn mx pen)) in *.
    destruct (same_elim cs cs' ls e (ed_eliminated ed1) P K1) as (Ps&El).
    assert (Pn : Permutation (o_order o n (set_minus cs e)) (set_minus cs' (ed_eliminated ed1))) by (eapply perm_trans; [apply Ho|exact Ps]).
    destruct (IH (S n') (Some (all_elim pa' ed1)) _ Pn) as (o2&w'&rs'&ms'&Ho2&T2&W&F&G).
    set (o' := Oracle (fun j => if Nat.eqb j n' then k else o_choice o2 j) (fun j l => if Nat.eqb j n' then l else o_order o2 j l)).
    assert (Ec : o_choice o' n' = k) by (cbn; rewrite Nat.eqb_refl; reflexivity).
    assert (Ee : elim_decision o' n' (ri_of cs' ls mn mx pen) = ed1) by (apply elim_decision_choice; exact Ec).
    exists o', w', (dmap cs' (tally ls) :: rs'), (mk_meta n' cs' ls mn mx pen ed1 (all_elim pa' ed1) (ed_eliminated ed1) None :: ms'). split; [|split; [|split; [exact W|split]]].
    + intros j l. cbn. destruct (Nat.eqb j n'); [apply Permutation_refl|apply Ho2].
    + rewrite <- Ee. apply trace_next.
      * exact (Permutation_NoDup P Hn).
      * intro E. rewrite E in P. apply Permutation_sym, Permutation_nil in P. contradiction.
      * exact (lines_perm _ _ _ P Hl).
      * exact R'.
      * intro X. apply Hd, (decided_perm _ _ _ _ _ (Permutation_sym P)), X.
      * reflexivity.
      * rewrite Ee. assert (Eo : o_order o' n' (set_minus cs' (ed_eliminated ed1)) = set_minus cs' (ed_eliminated ed1)) by (cbn; rewrite Nat.eqb_refl; reflexivity).
        rewrite Eo, El. refine (trace_ext o2 o' _ _ _ _ _ _ _ T2 _). intros j Hj. cbn. rewrite (proj2 (Nat.eqb_neq j n')) by lia. split; reflexivity.
    + constructor; [apply Permutation_map, P|exact F].
    + constructor; [|exact G]. cbn. repeat split; [exact K2|exact K3].
Qed.
Lemma trace_fun o n pa cs ls w rs ms : trace o n pa cs ls w rs ms -> forall w' rs' ms', trace o n pa cs ls w' rs' ms' -> w' = w /\ rs' = rs /\ ms' = ms.
Proof.
  intro T. induction T as [n pa cs ls mn mx pen Hn Hne Hl R Hd|n pa cs ls mn mx pen e w rs ms Hn Hne Hl R Hd He T IH]; intros w' rs' ms' T';
    inversion T' as [n2 pa2 cs2 ls2 mn2 mx2 pen2 Hn2 Hne2 Hl2 R2 Hd2|n2 pa2 cs2 ls2 mn2 mx2 pen2 e2 w2 rs2 ms2 Hn2 Hne2 Hl2 R2 Hd2 He2 T2]; subst;
    destruct (numbers_unique cs cs ls ls _ _ _ _ _ _ (fun c => iff_refl _) (fun c => eq_refl) R R2) as (<-&<-&<-); try contradiction; [auto|].
  destruct (IH _ _ _ T2) as (->&->&->). auto.
Qed.

(** ** Withdrawing *)
Lemma only_lines keep gone m : irv_election m -> (forall c, In c (cands m) -> memb c keep = negb (memb c gone)) ->
  j_votelines (only keep m) = map (without gone) (j_votelines m).
Proof.
  intros (_&_&Hl) H. cbn. apply map_ext_in. intros l Hin. unfold without. f_equal. apply filter_ext_in. intros kv Hk. apply H.
  destruct (Hl l Hin) as [[_ H2] _]. apply H2, in_map, Hk.
Qed.
Lemma only_cands keep m : cands (only keep m) = filter (fun c => memb c keep) (cands m).
Proof. unfold cands, only. cbn [j_candidates]. generalize (j_candidates m). induction d as [|kv d IH]; cbn; [reflexivity|]. destruct (memb (fst kv) keep); cbn; rewrite IH; reflexivity. Qed.

Lemma withdrawn_trace o m d i rc rm : schedule o -> irv_election m -> strict_election m -> IRV_dict_from_jabmod o m = Ok d -> round d i rc rm ->
  let m' := only (im_starting_cands rm) m in
  irv_election m' /\ strict_election m' /\ exists pa cs, Permutation cs (cands m') /\ trace o (S i) pa cs (j_votelines m') (ir_winner d) (skipn i (ir_rounds d)) (skipn i (ir_roundmeta d)).
Proof.
  intros Ho Hm Hs E [Hr1 Hr2] m'. destruct (irv_run o m Ho Hm) as (x&Ex&T&_). rewrite E in Ex. apply ok_inj in Ex. subst x.
  assert (HP : forall n cs ls cs' ls', irv_step o n cs ls cs' ls' -> (exists gone, strict_state (cands m) (j_votelines m) gone cs ls) -> exists gone, strict_state (cands m) (j_votelines m) gone cs' ls')
    by (intros n cs ls cs' ls'; apply strict_step; exact Ho).
  destruct (trace_at (fun cs ls => exists gone, strict_state (cands m) (j_votelines m) gone cs ls) o 1 None _ _ _ _ _ i HP T) as (pa&cs&ls&(gone&S0&S1&S2&S3)&Ti).
  { exists []. apply strict_init; [intros l Hl; apply Hm; exact Hl|exact Hs]. }
  { apply nth_lt in Hr1. exact Hr1. }
  assert (Hsc : im_starting_cands rm = cs).
  { rewrite (skipn_nth _ _ _ Hr2) in Ti. inversion Ti; reflexivity. }
  assert (Hk : forall c, In c (cands m) -> memb c (im_starting_cands rm) = negb (memb c gone)).
  { intros c Hc. rewrite Hsc. destruct (memb c gone) eqn:Eg; cbn [negb].
    - apply memb_nIn. intro X. apply S2 in X. apply memb_In in Eg. tauto.
    - apply memb_In, S2. split; [exact Hc|apply memb_nIn, Eg]. }
  assert (Hln : j_votelines m' = ls) by (unfold m'; rewrite (only_lines _ gone m Hm Hk); symmetry; exact S3).
  assert (Hcs : NoDup cs /\ cs <> [] /\ lines_inv cs ls) by (inversion Ti; auto). destruct Hcs as (Hn&Hne&Hl).
  assert (Pc : Permutation cs (cands m')).
  { unfold m'. rewrite only_cands, Hsc. apply NoDup_Permutation; [exact Hn|apply NoDup_filter, Hm|]. intro c. rewrite filter_In, memb_In, (S2 c). tauto. }
  split; [|split].
  - split; [exact (Permutation_NoDup Pc Hn)|]. split; [intro X; rewrite X in Pc; apply Permutation_sym, Permutation_nil in Pc; contradiction|].
    intros l Hin. rewrite Hln in Hin. destruct (lines_perm _ _ _ Pc Hl l Hin) as [Q1 Q2]. split; assumption.
  - intros l Hin. rewrite Hln, S3 in Hin. apply in_map_iff in Hin as (l0&<-&Hl0). apply strict_without, S1, Hl0.
  - exists pa, cs. split; [exact Pc|]. rewrite Hln. exact Ti.
Qed.

(** Take any round of a count and strike all candidates who are out by then from the list and from the ballots.  Then the count of what
    is left has the remaining rounds, with the same figures, and the same winner.  If lots are drawn in these rounds, they can fall in the same way; *)
Theorem C92_withdrawn_lots : forall o m d i rc rm, schedule o -> irv_election m -> strict_election m -> IRV_dict_from_jabmod o m = Ok d -> round d i rc rm ->
  let m' := only (im_starting_cands rm) m in
  irv_election m' /\ strict_election m' /\
  exists o' d', schedule o' /\ IRV_dict_from_jabmod o' m' = Ok d' /\ Permutation (ir_winner d) (ir_winner d') /\ Forall2 (@Permutation _) (skipn i (ir_rounds d)) (ir_rounds d') /\
    Forall2 (fun rm rm' => im_random_elim rm = im_random_elim rm' /\ im_batch_elim rm = im_batch_elim rm' /\ im_exhaustedqty rm = im_exhaustedqty rm') (skipn i (ir_roundmeta d)) (ir_roundmeta d').
Proof.
  intros o m d i rc rm Ho Hm Hs E Hr m'. destruct (withdrawn_trace o m d i rc rm Ho Hm Hs E Hr) as (Hm'&Hs'&pa&cs&Pc&T). fold m' in Hm', Hs', Pc, T.
  split; [exact Hm'|]. split; [exact Hs'|]. destruct (trace_again _ _ _ _ _ _ _ _ Ho T 1%nat None _ Pc) as (o'&w'&rs'&ms'&Ho'&T'&W&F&G).
  destruct (irv_run o' m' Ho' Hm') as (d'&E'&T2&_). destruct (trace_fun _ _ _ _ _ _ _ _ T' _ _ _ T2) as (E1&E2&E3).
  exists o', d'. rewrite E1, E2, E3. auto.
Qed.
Print Assumptions C92_withdrawn_lots.
(** and if none are drawn, this is so whatever the schedule. *)
Theorem C92_withdrawn : forall o o' m d d' i rc rm, schedule o -> schedule o' -> irv_election m -> strict_election m -> IRV_dict_from_jabmod o m = Ok d -> round d i rc rm ->
  (forall j rcj rmj, (i <= j)%nat -> round d j rcj rmj -> ~ final d j -> im_random_elim rmj = false) ->
  IRV_dict_from_jabmod o' (only (im_starting_cands rm) m) = Ok d' ->
  Permutation (ir_winner d) (ir_winner d') /\ Forall2 (@Permutation _) (skipn i (ir_rounds d)) (ir_rounds d').
Proof.
  intros o o' m d d' i rc rm Ho Ho' Hm Hs E Hr Hnr E'. destruct (C92_withdrawn_lots o m d i rc rm Ho Hm Hs E Hr) as (Hm'&_&o1&d1&Ho1&E1&W&F&G).
  assert (Ld : length (ir_roundmeta d) = length (ir_rounds d)).
  { destruct (irv_run o m Ho Hm) as (x&Ex&T&_). rewrite E in Ex. apply ok_inj in Ex. subst x. exact (proj1 (trace_lengths _ _ _ _ _ _ _ _ T)). }
  assert (N1 : forall j rcj rmj, round d1 j rcj rmj -> ~ final d1 j -> im_random_elim rmj = false).
  { intros j rcj rmj [A1 A2] Hf. pose proof (F2_length _ _ _ G) as LG. assert (LF : (length (ir_rounds d) - i)%nat = length (ir_rounds d1)) by (rewrite <- skipn_length; exact (F2_length _ _ _ F)). pose proof (nth_lt _ _ _ A2) as Lj.
    destruct (nth_error (skipn i (ir_roundmeta d)) j) as [rm0|] eqn:B2; [|apply nth_error_None in B2; lia].
    assert (Gj : im_random_elim rm0 = im_random_elim rmj).
    { clear -G A2 B2. revert j A2 B2. induction G as [|x y l l' Hxy _ IH]; intros [|j] A2 B2; cbn [nth_error] in *; try discriminate; [|eauto].
      apply some_inj in A2, B2. subst. apply Hxy. }
    rewrite <- Gj. rewrite nth_error_skipn in B2. rewrite skipn_length in LG. pose proof (nth_lt _ _ _ B2) as L2.
    destruct (nth_error (ir_rounds d) (i + j)) as [rc0|] eqn:B1; [|apply nth_error_None in B1; lia].
    apply (Hnr (i + j)%nat rc0 rm0); [lia|split; assumption|]. unfold final in *. intro X. apply Hf. lia. }
  destruct (C23_irv_chance_only_where_reported o1 o' _ d1 d' Ho1 Ho' Hm' E1 E' N1) as (W2&L2&R2).
  split; [exact (perm_trans W W2)|].
  assert (F2 : Forall2 (@Permutation _) (ir_rounds d1) (ir_rounds d')).
  { destruct (irv_run o1 _ Ho1 Hm') as (x&Ex&T1&_). rewrite E1 in Ex. apply ok_inj in Ex. subst x. destruct (irv_run o' _ Ho' Hm') as (x&Ex&T2&_). rewrite E' in Ex. apply ok_inj in Ex. subst x.
    destruct (trace_lengths _ _ _ _ _ _ _ _ T1) as [La _]. destruct (trace_lengths _ _ _ _ _ _ _ _ T2) as [Lb _].
    assert (H : forall j a b, nth_error (ir_rounds d1) j = Some a -> nth_error (ir_rounds d') j = Some b -> Permutation a b).
    { intros j a b Ha Hb. destruct (nth_error (ir_roundmeta d1) j) as [ra|] eqn:Ma; [|apply nth_error_None in Ma; apply nth_lt in Ha; lia].
      destruct (nth_error (ir_roundmeta d') j) as [rb|] eqn:Mb; [|apply nth_error_None in Mb; apply nth_lt in Hb; lia].
      apply (R2 j a ra b rb); split; assumption. }
    clear -L2 H. revert H L2. generalize (ir_rounds d'). induction (ir_rounds d1) as [|a l IH]; intros [|b l'] H L2; cbn [length] in L2; try discriminate; constructor.
    - apply (H 0%nat); reflexivity.
    - apply IH; [|lia]. intros j x y Hx Hy. apply (H (S j)); assumption. }
  clear -F F2. revert F2. generalize (ir_rounds d'). induction F as [|a b l l' Hab _ IH]; intros l2 F2; inversion F2; subst; constructor; [eapply perm_trans; eassumption|auto].
Qed.
Print Assumptions C92_withdrawn_lots.
Print Assumptions C92_withdrawn.

(** In the sample Di and Ed go out in the first round; the count of the others alone has the two remaining rounds. *)
Example C92_nonvacuous : exists d rc rm d', schedule o0 /\ irv_election irv_sample /\ strict_election irv_sample /\ IRV_dict_from_jabmod o0 irv_sample = Ok d /\ round d 1 rc rm /\
  (forall j rcj rmj, (1 <= j)%nat -> round d j rcj rmj -> ~ final d j -> im_random_elim rmj = false) /\
  cands irv_sample = [A; B; C; D; E] /\ im_starting_cands rm = [A; B; C] /\ length (ir_rounds d) = 3%nat /\
  IRV_dict_from_jabmod o0 (only (im_starting_cands rm) irv_sample) = Ok d' /\ length (ir_rounds d') = 2%nat /\ ir_winner d' = [B].
Proof.
  do 4 eexists. split; [exact o0_ok|]. split; [exact irv_sample_ok|]. split; [exact irv_sample_strict|]. split; [vm_compute; reflexivity|].
  split; [split; vm_compute; reflexivity|]. split.
  { intros [|[|[|[|j]]]] rcj rmj Hj [_ Hr] _; try lia; vm_compute in Hr; try discriminate Hr; apply some_inj in Hr; subst rmj; reflexivity. }
  split; [reflexivity|]. split; [reflexivity|]. split; [reflexivity|]. split; [vm_compute; reflexivity|]. split; reflexivity.
Qed.

(** With equal rankings it is not so: a ballot that is thrown out as an overvote in an early round would have counted if the others had not run. *)
Definition tied_line : jabmod := Jabmod [] [(A, u "a"); (B, u "b"); (C, u "c")]
  [ vl 4 [(A, ranked 1)]; vl 3 [(B, ranked 1)]; vl 1 [(C, ranked 1)]; vl 2 [(B, ranked 1); (C, ranked 1)] ].
Theorem C92_overvotes_refuted : exists d rc rm d', irv_election tied_line /\ IRV_dict_from_jabmod o0 tied_line = Ok d /\ round d 1 rc rm /\
  im_starting_cands rm = [A; B] /\ ir_winner d = [A] /\ IRV_dict_from_jabmod o0 (only (im_starting_cands rm) tied_line) = Ok d' /\ ir_winner d' = [B].
Proof.
  do 4 eexists. split; [irv_elec|]. split; [vm_compute; reflexivity|]. split; [split; vm_compute; reflexivity|]. split; [reflexivity|]. split; [reflexivity|]. split; [vm_compute; reflexivity|reflexivity].
Qed.
Print Assumptions C92_overvotes_refuted.
