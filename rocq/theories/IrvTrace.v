(** * IrvTrace: consequences of a completed IRV count, round by round *)

From Verif Require Import PyBase PyFacts Jabmod PairwiseModel Spec PairwiseFacts IrvModel IrvFacts IrvStrict.
Local Open Scope Z_scope.

(** ** Locating a round in a trace *)

Lemma trace_lengths o n pa cs ls w rs ms : trace o n pa cs ls w rs ms -> length ms = length rs /\ rs <> [].
Proof. induction 1 as [|n pa cs ls mn mx pen e w rs ms Hn Hne Hl R Hd He T [IH1 IH2]]; cbn [length]; split; congruence. Qed.

(** One step of the count, from the candidates and lines of a round to those of the next. *)
Definition irv_step (o : oracle) (n : nat) (cs : list str) (ls : list voteline) (cs' : list str) (ls' : list voteline) : Prop :=
  exists mn mx pen e,
    NoDup cs /\ cs <> [] /\ lines_inv cs ls /\ round_numbers cs ls mn mx pen /\ ~ decided cs ls mn mx /\
    e = ed_eliminated (elim_decision o n (ri_of cs ls mn mx pen)) /\
    cs' = o_order o n (set_minus cs e) /\ ls' = map (without e) (pruned ls).

Lemma trace_at (P : list str -> list voteline -> Prop) o n pa cs ls w rs ms i :
  (forall n cs ls cs' ls', irv_step o n cs ls cs' ls' -> P cs ls -> P cs' ls') ->
  trace o n pa cs ls w rs ms -> P cs ls -> (i < length rs)%nat ->
  exists pa' cs' ls', P cs' ls' /\ trace o (n + i) pa' cs' ls' w (skipn i rs) (skipn i ms).
Proof.
  intros HP T. revert i. induction T as [n pa cs ls mn mx pen Hn Hne Hl R Hd|n pa cs ls mn mx pen e w rs ms Hn Hne Hl R Hd He T IH]; intros i H0 Hi.
  - cbn [length] in Hi. destruct i; [|lia]. rewrite Nat.add_0_r. do 3 eexists. split; [exact H0|]. constructor; assumption.
  - destruct i as [|i].
    + rewrite Nat.add_0_r. do 3 eexists. split; [exact H0|]. cbn [skipn]. eapply trace_next; eauto.
    + cbn [length] in Hi. destruct (IH i) as (pa'&cs'&ls'&H1&H2); [|lia|].
      * eapply HP; [|exact H0]. exists mn, mx, pen, e. split; [exact Hn|]. split; [exact Hne|]. split; [exact Hl|].
        split; [exact R|]. split; [exact Hd|]. split; [exact He|]. split; reflexivity.
      * exists pa', cs', ls'. split; [exact H1|]. cbn [skipn]. replace (n + S i)%nat with (S n + i)%nat by lia. exact H2.
Qed.

Lemma skipn_nth {A} (l : list A) i x : nth_error l i = Some x -> skipn i l = x :: skipn (S i) l.
Proof.
  revert l; induction i as [|i IH]; intros l H; destruct l as [|a l]; cbn [nth_error] in H; try discriminate.
  - inversion H; reflexivity.
  - cbn [skipn]. rewrite (IH l H). reflexivity.
Qed.

Lemma nth_error_skipn {A} k (l : list A) j : nth_error (skipn k l) j = nth_error l (k + j).
Proof. revert l; induction k as [|k IH]; intros [|a l]; cbn [skipn Nat.add nth_error]; auto. destruct j; reflexivity. Qed.

Lemma nth_lt {A} (l : list A) i x : nth_error l i = Some x -> (i < length l)%nat.
Proof. intro H. apply nth_error_Some. rewrite H. discriminate. Qed.

Lemma skipn_nil_last {A} (l : list A) i : skipn (S i) l = [] -> (length l <= S i)%nat.
Proof. intro H. assert (E : length (skipn (S i) l) = 0%nat) by (rewrite H; reflexivity). rewrite skipn_length in E. lia. Qed.

(** What is known of round [i]. *)
Definition round_facts (o : oracle) (k : nat) (cs : list str) (ls : list voteline) (w : list str)
    (rc : dict Z) (rm : irvmeta) (rs' : list (dict Z)) (ms' : list irvmeta) : Prop :=
  exists pa mn mx pen, NoDup cs /\ cs <> [] /\ lines_inv cs ls /\ round_numbers cs ls mn mx pen /\
    rc = dmap cs (tally ls) /\
    let ed := elim_decision o k (ri_of cs ls mn mx pen) in
    ( (decided cs ls mn mx /\ rs' = [] /\ ms' = [] /\ w = filter (fun c => tally ls c =? mx) cs /\
       rm = mk_meta k cs ls mn mx pen ed (all_elim pa ed) (set_minus cs w) (Some w))
      \/
      (~ decided cs ls mn mx /\
       rm = mk_meta k cs ls mn mx pen ed (all_elim pa ed) (ed_eliminated ed) None /\
       trace o (S k) (Some (all_elim pa ed)) (o_order o k (set_minus cs (ed_eliminated ed)))
             (map (without (ed_eliminated ed)) (pruned ls)) w rs' ms') ).

Lemma trace_round (P : list str -> list voteline -> Prop) o n pa cs ls w rs ms i rc rm :
  (forall n cs ls cs' ls', irv_step o n cs ls cs' ls' -> P cs ls -> P cs' ls') ->
  trace o n pa cs ls w rs ms -> P cs ls -> nth_error rs i = Some rc -> nth_error ms i = Some rm ->
  exists cs' ls', P cs' ls' /\ round_facts o (n + i) cs' ls' w rc rm (skipn (S i) rs) (skipn (S i) ms).
Proof.
  intros HP T H0 E1 E2. destruct (trace_at P _ _ _ _ _ _ _ _ i HP T H0 (nth_lt _ _ _ E1)) as (pa'&cs'&ls'&H1&T').
  exists cs', ls'. split; [exact H1|]. rewrite (skipn_nth _ _ _ E1), (skipn_nth _ _ _ E2) in T'.
  inversion T'; subst; exists pa', mn, mx, pen; repeat (split; [assumption|]); (split; [reflexivity|]); cbv zeta; [left|right]; auto 10.
Qed.

Lemma round_facts_first o k cs ls w rc rm rs' ms' :
  round_facts o k cs ls w rc rm rs' ms' -> rs' <> [] ->
  exists rc' rm' rs'' ms'', rs' = rc' :: rs'' /\ ms' = rm' :: ms''.
Proof.
  intros (pa&mn&mx&pen&_&_&_&_&_&[(_&E&_)|(_&_&T)]) Hne; [congruence|].
  destruct (trace_lengths _ _ _ _ _ _ _ _ T) as [E _].
  destruct rs' as [|a b]; [congruence|]. destruct ms' as [|c d]; [discriminate|]. eauto 8.
Qed.

(** ** Sums *)

Lemma tally_split cs ls :
  NoDup cs -> lines_inv cs ls -> zsum (map v_qty (pruned ls)) = exhausted ls + zsum (map (tally ls) cs).
Proof.
  intros Hn Hl. destruct (discard_eq ls) as [_ [Hi _]]; [intros l Hll; apply Hl; exact Hll|].
  assert (Hp : lines_inv cs (pruned ls)) by (intros l Hll; apply Hl, Hi, Hll).
  unfold exhausted, tally, ballots_where. rewrite zsum_map_swap, <- zsum_map_add. apply zsum_map_ext. intros l Hll.
  destruct (Hp l Hll) as [[_ Hinc] Hranks]. unfold no_top, is_top. destruct (top l) as [t|] eqn:Et.
  - destruct (top_In l t Hranks Et) as [Ht _]. apply Hinc in Ht.
    rewrite (zsum_single t (fun _ => v_qty l) cs Hn Ht). lia.
  - rewrite zsum_map_0 by reflexivity. lia.
Qed.

Lemma trace_winner o n pa cs ls w rs ms :
  valid_oracle o -> trace o n pa cs ls w rs ms -> w <> [] /\ NoDup w /\ incl w cs.
Proof.
  intro Ho. induction 1 as [n pa cs ls mn mx pen Hn Hne Hl R Hd|n pa cs ls mn mx pen e w rs ms Hn Hne Hl R Hd He T (IH1&IH2&IH3)].
  - split; [|split].
    + destruct (rn_max _ _ _ _ _ R) as [[c [Hc Ec]] _]. intro E.
      assert (Hi : In c (filter (fun c => tally ls c =? mx) cs)) by (apply filter_In; split; [exact Hc|lia]).
      rewrite E in Hi. destruct Hi.
    + apply NoDup_filter; exact Hn.
    + intros c Hc. apply filter_In in Hc as [Hc _]; exact Hc.
  - split; [exact IH1|]. split; [exact IH2|]. intros c Hc. apply IH3 in Hc.
    apply (Permutation_in _ (Ho n _)), set_minus_In in Hc as [Hc _]. exact Hc.
Qed.

Lemma trace_rounds_bound o n pa cs ls w rs ms :
  valid_oracle o -> trace o n pa cs ls w rs ms -> (length rs <= length cs)%nat.
Proof.
  intro Ho. induction 1 as [n pa cs ls mn mx pen Hn Hne Hl R Hd|n pa cs ls mn mx pen e w rs ms Hn Hne Hl R Hd He T IH].
  - destruct cs; [congruence|cbn; lia].
  - destruct (elim_facts o n cs ls mn mx pen e Hn R He) as (He1&He2&He3&He4&He5).
    rewrite (Permutation_length (Ho n _)) in IH. destruct e as [|x e']; [congruence|].
    pose proof (set_minus_length cs (x :: e') x Hn (or_introl eq_refl) (He3 x (or_introl eq_refl))).
    cbn [length]. lia.
Qed.

(** The first round of a trace. *)
Lemma trace_first o n pa cs ls w rs ms :
  trace o n pa cs ls w rs ms ->
  exists rc rm rs' ms', rs = rc :: rs' /\ ms = rm :: ms' /\ rc = dmap cs (tally ls) /\
    im_startingqty rm = zsum (map v_qty ls) /\ im_starting_cands rm = cs /\ im_roundnum rm = n.
Proof. intro T. inversion T; subst; do 4 eexists; (split; [reflexivity|]); (split; [reflexivity|]); cbn; auto. Qed.

Lemma without_qty e ls : map v_qty (map (without e) ls) = map v_qty ls.
Proof. rewrite map_map. reflexivity. Qed.

(** Nobody eliminated reappears. *)
Lemma trace_incl o n pa cs ls w rs ms j rm :
  valid_oracle o -> trace o n pa cs ls w rs ms -> nth_error ms j = Some rm -> incl (im_starting_cands rm) cs.
Proof.
  intros Ho T. revert j. induction T as [n pa cs ls mn mx pen Hn Hne Hl R Hd|n pa cs ls mn mx pen e w rs ms Hn Hne Hl R Hd He T IH];
    intros [|j] E; cbn [nth_error] in E.
  - apply some_inj in E. subst rm. cbn. apply incl_refl.
  - destruct j; discriminate.
  - apply some_inj in E. subst rm. cbn. apply incl_refl.
  - intros c Hc. apply (IH j E) in Hc. apply (Permutation_in _ (Ho n _)), set_minus_In in Hc as [Hc _]. exact Hc.
Qed.

(** Weights are not negative. *)
Definition nonneg_lines (ls : list voteline) : Prop := forall l, In l ls -> 0 <= v_qty l.

Lemma ballots_where_nonneg p ls : nonneg_lines ls -> 0 <= ballots_where p ls.
Proof.
  intro H. apply zsum_nonneg. intros x Hx. apply in_map_iff in Hx as [l [<- Hl]]. specialize (H l Hl). destruct (p l); lia.
Qed.

Lemma nonneg_step o n cs ls cs' ls' : irv_step o n cs ls cs' ls' -> nonneg_lines ls -> nonneg_lines ls'.
Proof.
  intros (mn&mx&pen&e&Hn&Hne&Hl&R&Hd&He&_&->) H l Hll. apply in_map_iff in Hll as [l0 [<- Hl0]]. cbn. apply H.
  destruct (discard_eq ls) as [_ [Hi _]]; [intros x Hx; apply Hl; exact Hx|]. apply Hi; exact Hl0.
Qed.

Lemma tally_nonneg cs ls c : lines_inv cs ls -> nonneg_lines ls -> 0 <= tally ls c.
Proof.
  intros Hl H. unfold tally. apply ballots_where_nonneg. intros l Hll. apply H.
  destruct (discard_eq ls) as [_ [Hi _]]; [intros x Hx; apply Hl; exact Hx|]. apply Hi; exact Hll.
Qed.

(** Two different candidates' values add up to at most the total. *)
Lemma two_le_sum (f : str -> Z) cs a b :
  NoDup cs -> In a cs -> In b cs -> a <> b -> (forall c, In c cs -> 0 <= f c) -> f a + f b <= zsum (map f cs).
Proof.
  intros Hn Ha Hb Hab Hf.
  assert (E : f a + f b = zsum (map (fun c => (if str_eqb a c then f c else 0) + (if str_eqb b c then f c else 0)) cs)).
  { rewrite zsum_map_add, !zsum_single by assumption. reflexivity. }
  rewrite E. apply zsum_le. intros c Hc. specialize (Hf c Hc).
  destruct (str_eqb a c) eqn:E1, (str_eqb b c) eqn:E2; try lia.
  apply str_eqb_eq in E1, E2. congruence.
Qed.

Lemma majority_unique cs ls mx :
  NoDup cs -> lines_inv cs ls -> nonneg_lines ls -> greatest (tally ls) cs mx -> zsum (map (tally ls) cs) < 2 * mx ->
  exists c, filter (fun c => tally ls c =? mx) cs = [c] /\ In c cs /\ tally ls c = mx.
Proof.
  intros Hn Hl Hq [[c [Hc Ec]] _] Hm.
  assert (H1 : NoDup (filter (fun c => tally ls c =? mx) cs)) by (apply NoDup_filter; exact Hn).
  assert (H2 : forall d, In d (filter (fun c => tally ls c =? mx) cs) -> d = c).
  { intros d Hd. apply filter_In in Hd as [Hd Ed]. apply Z.eqb_eq in Ed.
    destruct (str_eqb d c) eqn:E; [apply str_eqb_eq; exact E|]. apply str_eqb_neq in E.
    pose proof (two_le_sum (tally ls) cs d c Hn Hd Hc E (fun x _ => tally_nonneg cs ls x Hl Hq)). lia. }
  assert (H3 : In c (filter (fun c => tally ls c =? mx) cs)) by (apply filter_In; split; [exact Hc|lia]).
  exists c. split; [|auto]. destruct (filter (fun c => tally ls c =? mx) cs) as [|x [|y r]].
  - destruct H3.
  - rewrite (H2 x) by (left; reflexivity). reflexivity.
  - inversion H1 as [|? ? Hx _]; subst. exfalso. apply Hx. rewrite (H2 x) by (left; reflexivity).
    rewrite <- (H2 y) by (right; left; reflexivity). left; reflexivity.
Qed.
