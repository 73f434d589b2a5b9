(** * Property C68: how the pairwise tally and the Copeland winners respond to changes of the input
    (abiflib/pairwise.py): raising a winner, renaming and reordering candidates, multiplying the
    ballots, joining two counts, reversing every ballot. *)

From Verif Require Import PyBase PyFacts Jabmod PairwiseModel Spec PairwiseFacts PropsPairwise.
Local Open Scope Z_scope.

(** ** Monotonicity *)

(** The two votelines have the same quantity and compare every two candidates other than [w] alike;
    [w] is preferred to everybody it was preferred to, and nobody is newly preferred to [w]. *)
Definition raises (w : str) (l l' : voteline) : Prop :=
  v_qty l' = v_qty l /\
  (forall a b, a <> w -> b <> w -> prefers l' a b = prefers l a b) /\
  (forall b, prefers l w b = true -> prefers l' w b = true) /\
  (forall b, prefers l' b w = true -> prefers l b w = true).

Lemma ballots_where_mono (p q : voteline -> bool) ls ls' :
  Forall2 (fun l l' => v_qty l' = v_qty l /\ 0 <= v_qty l /\ (p l = true -> q l' = true)) ls ls' ->
  ballots_where p ls <= ballots_where q ls'.
Proof.
  unfold ballots_where. induction 1 as [|l l' ls ls' [H1 [H2 H3]] _ IH]; simpl; [lia|].
  rewrite H1. destruct (p l); [rewrite H3 by reflexivity; lia|]. destruct (q l'); lia.
Qed.

Lemma raises_votes m m' w : Forall2 (raises w) (j_votelines m) (j_votelines m') ->
  (forall l, In l (j_votelines m) -> 0 <= v_qty l) ->
  (forall b, votes_over m w b <= votes_over m' w b) /\
  (forall b, votes_over m' b w <= votes_over m b w) /\
  (forall a b, a <> w -> b <> w -> votes_over m' a b = votes_over m a b).
Proof.
  unfold votes_over. generalize (j_votelines m) (j_votelines m'). intros ls ls' H Hq.
  assert (Hb : Forall2 (fun l l' => raises w l l' /\ 0 <= v_qty l) ls ls').
  { clear -H Hq. induction H as [|l l' ls ls' H _ IH]; constructor.
    - split; [exact H|]. apply Hq; left; reflexivity.
    - apply IH. intros; apply Hq; right; assumption. }
  clear H Hq. split; [|split].
  - intro b. apply ballots_where_mono. induction Hb as [|l l' ls ls' [H H0] _ IH]; constructor; [|exact IH].
    destruct H as (H1&_&H3&_). repeat split; auto.
  - intro b. unfold ballots_where. induction Hb as [|l l' ls ls' [H H0] _ IH]; simpl; [lia|].
    destruct H as (H1&_&_&H4). specialize (H4 b). rewrite H1.
    destruct (prefers l' b w); [rewrite H4 by reflexivity; lia|]. destruct (prefers l b w); lia.
  - intros a b Ha Hbb. unfold ballots_where. induction Hb as [|l l' ls ls' [H H0] _ IH]; simpl; [reflexivity|].
    destruct H as (H1&H2&_&_). rewrite H1, (H2 a b Ha Hbb), IH. reflexivity.
Qed.

(** Raising a Copeland winner on any number of ballots keeps it a winner, and nobody else becomes one. *)
Theorem C68_monotone : forall m m' cc cc' ws ws' w,
  tallyable m -> tallyable m' -> j_candidates m' = j_candidates m ->
  (forall l, In l (j_votelines m) -> 0 <= v_qty l) ->
  Forall2 (raises w) (j_votelines m) (j_votelines m') ->
  full_copecount m = Ok cc -> get_Copeland_winners cc = Ok ws -> In w ws ->
  full_copecount m' = Ok cc' -> get_Copeland_winners cc' = Ok ws' ->
  In w ws' /\ forall c, In c ws' -> In c ws.
Proof.
  intros m m' cc cc' ws ws' w T T' Hc Hq Hr E0 E1 Hw E0' E1'.
  destruct (C06_winners_are_argmax m cc ws T E0 E1) as [_ [_ X]].
  destruct (C06_winners_are_argmax m' cc' ws' T' E0' E1') as [_ [_ X']].
  assert (Hcs : cands m' = cands m) by (unfold cands; rewrite Hc; reflexivity).
  destruct (raises_votes m m' w Hr Hq) as (V1&V2&V3).
  set (S := fun c => 2 * count (fun b => negb (beats (votes_over m) b c)) (others c (cands m))).
  set (S' := fun c => 2 * count (fun b => negb (beats (votes_over m') b c)) (others c (cands m))).
  assert (Es : forall c, In c (cands m) -> score2 cc c = Some (S c)) by (intros; apply score2_count; assumption).
  assert (Es' : forall c, In c (cands m) -> score2 cc' c = Some (S' c)).
  { intros c Hi. rewrite (score2_count m' cc' c) by (rewrite ?Hcs; assumption). rewrite Hcs. reflexivity. }
  assert (Up : S w <= S' w).
  { unfold S, S'. apply Zmult_le_compat_l; [|lia]. apply count_impl. intros b _ H. unfold beats in *.
    apply negb_true_iff, Z.ltb_ge in H. apply negb_true_iff, Z.ltb_ge. specialize (V1 b). specialize (V2 b). lia. }
  assert (Down : forall c, c <> w -> S' c <= S c).
  { intros c Hcw. unfold S, S'. apply Zmult_le_compat_l; [|lia]. apply count_impl. intros b _ H. unfold beats in *.
    apply negb_true_iff, Z.ltb_ge in H. apply negb_true_iff, Z.ltb_ge.
    destruct (str_eqb_spec b w) as [->|n].
    - specialize (V1 c). specialize (V2 c). lia.
    - rewrite (V3 c b Hcw n), (V3 b c n Hcw) in H. exact H. }
  apply X in Hw as [Hwc [s [Hs Hmax]]]. rewrite (Es w Hwc) in Hs. apply some_inj in Hs. subst s.
  assert (Top : forall c, In c (cands m) -> S c <= S w) by (intros c Hi; apply (Hmax c); [exact Hi|apply Es; exact Hi]).
  split.
  - apply X'. rewrite Hcs. split; [exact Hwc|]. exists (S' w). split; [apply Es'; exact Hwc|].
    intros c s Hi Hs. rewrite (Es' c Hi) in Hs. apply some_inj in Hs. subst s.
    destruct (str_eqb_spec c w) as [->|n]; [lia|]. specialize (Top c Hi). specialize (Down c n). lia.
  - intros c Hi. destruct (str_eqb_spec c w) as [->|n].
    + apply X. split; [exact Hwc|]. exists (S w). split; [apply Es; exact Hwc|].
      intros c' s' Hi' Hs'. rewrite (Es c' Hi') in Hs'. apply some_inj in Hs'. subst s'. apply Top; exact Hi'.
    + apply X' in Hi as [Hi [s [Hs Hm]]]. rewrite Hcs in Hi. rewrite (Es' c Hi) in Hs. apply some_inj in Hs. subst s.
      assert (S' w <= S' c) by (apply (Hm w); [rewrite Hcs; exact Hwc|apply Es'; exact Hwc]).
      apply X. split; [exact Hi|]. exists (S c). split; [apply Es; exact Hi|].
      intros c' s' Hi' Hs'. rewrite (Es c' Hi') in Hs'. apply some_inj in Hs'. subst s'.
      specialize (Top c' Hi'). specialize (Down c n). lia.
Qed.
Print Assumptions C68_monotone.

(** A winner raised on two kinds of ballots of the sample: C moves up past B, and a ballot that ranked
    nobody now ranks C. *)
Definition sample_raised : jabmod := Jabmod [] [(A, u "Ann"); (B, u "Bob"); (C, u "Cy")]
  [ vl 27 [(A, ranked 1); (B, ranked 3); (C, ranked 2)];
    vl 26 [(C, ranked 1); (B, ranked 2); (A, ranked 3)];
    vl 25 [(B, ranked 1); (C, ranked 1)];
    vl 3 [(C, ranked 2)];
    vl 1 [(C, ranked 1)] ].

(** Deciding [raises] for votelines that list candidates of [cs] only. *)
Definition raises_on (cs : list str) (w : str) (l l' : voteline) : bool :=
  (v_qty l' =? v_qty l) &&
  forallb (fun a => forallb (fun b =>
     (str_eqb a w || str_eqb b w || Bool.eqb (prefers l' a b) (prefers l a b))
     && (negb (str_eqb a w) || negb (prefers l a b) || prefers l' a b)
     && (negb (str_eqb b w) || negb (prefers l' a b) || prefers l a b)) cs) cs.

Lemma prefers_ext l a a' b b' : rank_on l a = rank_on l a' -> rank_on l b = rank_on l b' ->
  prefers l a b = prefers l a' b'.
Proof. unfold prefers. intros -> ->. reflexivity. Qed.

Lemma raises_on_spec cs dflt w l l' :
  incl (map fst (v_prefs l)) cs -> incl (map fst (v_prefs l')) cs -> In dflt cs -> dflt <> w -> In w cs ->
  ~ In dflt (map fst (v_prefs l)) -> ~ In dflt (map fst (v_prefs l')) ->
  raises_on cs w l l' = true -> raises w l l'.
Proof.
  intros H1 H2 Hd Hdw Hw Hd1 Hd2 H. unfold raises_on in H. apply andb_true_iff in H as [Hq H].
  rewrite forallb_forall in H.
  set (r := fun x => if memb x cs then x else dflt).
  assert (R : forall x, In (r x) cs) by (intro x; unfold r; destruct (memb x cs) eqn:E0; [apply memb_In; exact E0|exact Hd]).
  assert (N : forall l0 x, incl (map fst (v_prefs l0)) cs -> ~ In dflt (map fst (v_prefs l0)) -> rank_on l0 x = rank_on l0 (r x)).
  { intros l0 x Hi Hn. unfold r. destruct (memb x cs) eqn:E0; [reflexivity|]. unfold rank_on.
    apply memb_nIn in E0. rewrite (proj2 (dget_None x (v_prefs l0))), (proj2 (dget_None dflt (v_prefs l0))); auto. }
  assert (Rw : forall x, x <> w -> r x <> w).
  { intros x Hx. unfold r. destruct (memb x cs); [exact Hx|exact Hdw]. }
  assert (Rww : r w = w) by (unfold r; rewrite (proj2 (memb_In _ _) Hw); reflexivity).
  assert (P : forall x y, prefers l x y = prefers l (r x) (r y)) by (intros; apply prefers_ext; apply N; assumption).
  assert (P' : forall x y, prefers l' x y = prefers l' (r x) (r y)) by (intros; apply prefers_ext; apply N; assumption).
  assert (G : forall x y,
     (str_eqb (r x) w || str_eqb (r y) w || Bool.eqb (prefers l' (r x) (r y)) (prefers l (r x) (r y)))
     && (negb (str_eqb (r x) w) || negb (prefers l (r x) (r y)) || prefers l' (r x) (r y))
     && (negb (str_eqb (r y) w) || negb (prefers l' (r x) (r y)) || prefers l (r x) (r y)) = true).
  { intros x y. pose proof (H (r x) (R x)) as Hx. rewrite forallb_forall in Hx. apply Hx. apply R. }
  split; [apply Z.eqb_eq; exact Hq|]. split; [|split].
  - intros a b Ha Hb. specialize (G a b). apply andb_true_iff in G as [G _]. apply andb_true_iff in G as [G _].
    rewrite (proj2 (str_eqb_neq _ _) (Rw a Ha)), (proj2 (str_eqb_neq _ _) (Rw b Hb)) in G. cbn [orb] in G.
    rewrite P, P'. apply eqb_prop. exact G.
  - intros b Hb. specialize (G w b). apply andb_true_iff in G as [G _]. apply andb_true_iff in G as [_ G].
    rewrite <- P, <- P', Rww, str_eqb_refl, Hb in G. exact G.
  - intros b Hb. specialize (G b w). apply andb_true_iff in G as [_ G].
    rewrite <- P, <- P', Rww, str_eqb_refl, Hb in G. exact G.
Qed.

Ltac raises_tac :=
  apply (raises_on_spec [A; B; C; D] D);
  [intros x Hx; simpl in Hx |- *; tauto|intros x Hx; simpl in Hx |- *; tauto|simpl; tauto|discriminate|simpl; tauto
  |simpl; intuition discriminate|simpl; intuition discriminate|vm_compute; reflexivity].

Example C68_monotone_nonvacuous :
  tallyable sample /\ tallyable sample_raised /\ j_candidates sample_raised = j_candidates sample /\
  (forall l, In l (j_votelines sample) -> 0 <= v_qty l) /\
  Forall2 (raises C) (j_votelines sample) (j_votelines sample_raised) /\
  (exists cc, full_copecount sample = Ok cc /\ get_Copeland_winners cc = Ok [C]) /\
  votes_over sample C B = 29 /\ votes_over sample_raised C B = 57.
Proof.
  split; [apply sample_tallyable|]. split; [split; [nodup|intros l Hl; simpl in Hl; intuition (subst; reflexivity)]|].
  split; [reflexivity|]. split; [intros l Hl; simpl in Hl; intuition (subst; simpl; lia)|].
  split; [|split; [eexists; split; vm_compute; reflexivity|split; vm_compute; reflexivity]].
  repeat (apply Forall2_cons; [raises_tac|]). constructor.
Qed.

(** ** Neutrality: the names of the candidates' tokens do not matter. *)
Definition rename_line (f : str -> str) (l : voteline) : voteline :=
  with_prefs l (map (fun kv => (f (fst kv), snd kv)) (v_prefs l)).
Definition rename_tokens (f : str -> str) (m : jabmod) : jabmod :=
  Jabmod (j_metadata m) (map (fun kv => (f (fst kv), snd kv)) (j_candidates m))
         (map (rename_line f) (j_votelines m)).

Section Neutral.
Context (f : str -> str) (Hf : forall x y, f x = f y -> x = y).

Lemma f_eqb x y : str_eqb (f x) (f y) = str_eqb x y.
Proof.
  destruct (str_eqb_spec x y) as [->|n]; [apply str_eqb_refl|].
  apply str_eqb_neq. intro H. apply n, Hf, H.
Qed.

Lemma dget_rename {V} k (d : dict V) : dget (f k) (map (fun kv => (f (fst kv), snd kv)) d) = dget k d.
Proof.
  induction d as [|[k' v] r IH]; simpl; [reflexivity|]. rewrite f_eqb. destruct (str_eqb k k'); [reflexivity|exact IH].
Qed.

Lemma prefers_rename l a b : prefers (rename_line f l) (f a) (f b) = prefers l a b.
Proof. unfold prefers, rank_on, rename_line, with_prefs. cbn [v_prefs]. rewrite !dget_rename. reflexivity. Qed.

Lemma cands_rename m : cands (rename_tokens f m) = map f (cands m).
Proof. unfold cands, rename_tokens. cbn [j_candidates]. rewrite !map_map. reflexivity. Qed.

Lemma votes_rename m a b : votes_over (rename_tokens f m) (f a) (f b) = votes_over m a b.
Proof.
  unfold votes_over, ballots_where, rename_tokens. cbn [j_votelines]. rewrite map_map. f_equal.
  apply map_ext. intro l. rewrite prefers_rename. reflexivity.
Qed.

Lemma NoDup_map_inj l : NoDup l -> NoDup (map f l).
Proof.
  induction 1 as [|x l Hx _ IH]; simpl; constructor; [|exact IH].
  intro H. apply in_map_iff in H as [y [E0 H]]. apply Hf in E0. subst. contradiction.
Qed.

Lemma tallyable_rename m : tallyable m -> tallyable (rename_tokens f m).
Proof.
  intros [H1 H2]. split; [rewrite cands_rename; apply NoDup_map_inj; exact H1|].
  intros l Hl. unfold rename_tokens in Hl. cbn [j_votelines] in Hl. apply in_map_iff in Hl as [l0 [<- Hl]].
  specialize (H2 l0 Hl). unfold line_ranked in *. unfold rename_line, with_prefs. cbn [v_prefs].
  rewrite forallb_forall in *. intros kv Hk. apply in_map_iff in Hk as [kv0 [<- Hk]]. exact (H2 kv0 Hk).
Qed.

Lemma others_rename c l : others (f c) (map f l) = map f (others c l).
Proof.
  unfold others. induction l as [|x r IH]; simpl; [reflexivity|]. rewrite f_eqb, IH.
  destruct (str_eqb c x); reflexivity.
Qed.

Lemma count_map {X Y} (g : X -> Y) (p : Y -> bool) l : count p (map g l) = count (fun x => p (g x)) l.
Proof. rewrite !count_zsum, map_map. reflexivity. Qed.

Lemma count_ext {X} (p q : X -> bool) l : (forall x, p x = q x) -> count p l = count q l.
Proof. intro H. rewrite !count_zsum. apply zsum_map_ext. intros x _. rewrite H. reflexivity. Qed.

Lemma wlt_rename m c : wlt_of (cands (rename_tokens f m)) (votes_over (rename_tokens f m)) (f c)
  = wlt_of (cands m) (votes_over m) c.
Proof.
  unfold wlt_of. rewrite cands_rename, others_rename, !count_map. unfold beats, ties_with.
  f_equal; [| |f_equal]; apply count_ext; intro x; rewrite !votes_rename; reflexivity.
Qed.
End Neutral.

Lemma full_copecount_exact m cc : tallyable m -> full_copecount m = Ok cc ->
  cc_winlosstie cc = sort_desc (fun kv => wins (snd kv)) (dmap (cands m) (wlt_of (cands m) (votes_over m))).
Proof.
  intros H E0. unfold full_copecount in E0. rewrite (C01_pairwise_exact m H) in E0. cbn [bind] in E0.
  change (fun a b : str => if str_eqb a b then None else Some (votes_over m a b))
    with (offdiag (votes_over m)) in E0.
  rewrite (winlosstie_exact (cands m) (proj1 H)) in E0 by reflexivity. cbn [bind] in E0.
  apply ok_inj in E0. subst cc. reflexivity.
Qed.

Lemma winners_map (g : str -> str) cc cc' ws :
  cc_winlosstie cc' = map (fun kv => (g (fst kv), snd kv)) (cc_winlosstie cc) ->
  get_Copeland_winners cc = Ok ws -> get_Copeland_winners cc' = Ok (map g ws).
Proof.
  intros E0 E1. unfold get_Copeland_winners in *.
  assert (Es : calc_Copeland_scores cc' = map (fun ns => (g (fst ns), snd ns)) (calc_Copeland_scores cc)).
  { unfold calc_Copeland_scores, sort_desc. rewrite E0.
    rewrite (sort_by_map (fun ns : str * Z => (g (fst ns), snd ns)) _ (fun a b => snd b <=? snd a)) by reflexivity.
    rewrite !map_map. reflexivity. }
  rewrite Es. apply bind_ok in E1 as [mx [Em E1]]. rewrite map_map. cbn [snd].
  change (map (fun x : str * Z => snd x)) with (map (@snd str Z)). rewrite Em. cbn [bind].
  apply ok_inj in E1. subst ws. f_equal.
  generalize (calc_Copeland_scores cc). intro l. induction l as [|[k s] r IH]; [reflexivity|].
  simpl. destruct (s =? mx); simpl; rewrite IH; reflexivity.
Qed.

Theorem C68_neutral : forall f m, (forall x y, f x = f y -> x = y) -> tallyable m ->
  forall cc ws, full_copecount m = Ok cc -> get_Copeland_winners cc = Ok ws ->
  exists cc', full_copecount (rename_tokens f m) = Ok cc' /\
    (forall a b, In a (cands m) -> In b (cands m) ->
       mat_get (f a) (f b) (cc_winningvotes cc') = mat_get a b (cc_winningvotes cc)) /\
    cc_winlosstie cc' = map (fun kv => (f (fst kv), snd kv)) (cc_winlosstie cc) /\
    get_Copeland_winners cc' = Ok (map f ws).
Proof.
  intros f m Hf T cc ws E0 E1. pose proof (tallyable_rename f Hf m T) as T'.
  destruct (C05_copecount_total _ T') as [cc' E0']. exists cc'. split; [exact E0'|].
  assert (EW : cc_winlosstie cc' = map (fun kv => (f (fst kv), snd kv)) (cc_winlosstie cc)).
  { rewrite (full_copecount_exact m cc T E0), (full_copecount_exact _ cc' T' E0').
    unfold sort_desc.
    rewrite (sort_by_map (fun kv : str * wlt => (f (fst kv), snd kv)) _ (fun a b => wins (snd b) <=? wins (snd a)))
      by reflexivity.
    f_equal. rewrite (cands_rename f m) at 1. unfold dmap. rewrite !map_map. apply map_ext. intro c. cbn [fst snd].
    rewrite (wlt_rename f Hf). reflexivity. }
  split; [|split; [exact EW|exact (winners_map f cc cc' ws EW E1)]].
  intros a b Ha Hb.
  assert (W : cc_winningvotes cc = matrix (cands m) (fun a b => if str_eqb a b then None else Some (votes_over m a b))).
  { unfold full_copecount in E0. rewrite (C01_pairwise_exact m T) in E0. cbn [bind] in E0.
    apply bind_ok in E0 as [w [_ E0]]. apply ok_inj in E0. subst cc. reflexivity. }
  assert (W' : cc_winningvotes cc' = matrix (cands (rename_tokens f m))
     (fun a b => if str_eqb a b then None else Some (votes_over (rename_tokens f m) a b))).
  { unfold full_copecount in E0'. rewrite (C01_pairwise_exact _ T') in E0'. cbn [bind] in E0'.
    apply bind_ok in E0' as [w [_ E0']]. apply ok_inj in E0'. subst cc'. reflexivity. }
  rewrite W, W', !mat_get_matrix; try assumption.
  - rewrite (f_eqb f Hf), (votes_rename f Hf). reflexivity.
  - rewrite cands_rename. apply in_map. exact Ha.
  - rewrite cands_rename. apply in_map. exact Hb.
Qed.
Print Assumptions C68_neutral.

Lemma count_perm {X} (p : X -> bool) l l' : Permutation l l' -> count p l = count p l'.
Proof.
  intro P. unfold count. f_equal. induction P as [|x l l' _ IH|x y l|l l' l'' _ IH1 _ IH2]; simpl; [reflexivity| | |congruence].
  - destruct (p x); simpl; rewrite IH; reflexivity.
  - destruct (p x), (p y); reflexivity.
Qed.

Lemma Permutation_filter' {X} (p : X -> bool) l l' : Permutation l l' -> Permutation (filter p l) (filter p l').
Proof.
  induction 1 as [|x l l' _ IH|x y l|l l' l'' _ IH1 _ IH2]; simpl.
  - constructor.
  - destruct (p x); [constructor|]; exact IH.
  - destruct (p x), (p y); try apply Permutation_refl. apply perm_swap.
  - exact (Permutation_trans IH1 IH2).
Qed.

Definition renamer (s : str) : str := u "cand_" ++ s.
Example C68_neutral_nonvacuous :
  (forall x y, renamer x = renamer y -> x = y) /\ cands (rename_tokens renamer sample) = map renamer [A; B; C] /\
  exists cc, full_copecount (rename_tokens renamer sample) = Ok cc /\ get_Copeland_winners cc = Ok [renamer C].
Proof.
  split; [intros x y H; exact (app_inv_head (u "cand_") _ _ H)|]. split; [reflexivity|].
  eexists. split; vm_compute; reflexivity.
Qed.

(** ** The order of the candidate table only changes the order of the answer. *)
Theorem C68_candidate_order : forall m m' cc cc' ws ws', tallyable m -> tallyable m' ->
  Permutation (j_candidates m) (j_candidates m') -> j_votelines m' = j_votelines m ->
  full_copecount m = Ok cc -> full_copecount m' = Ok cc' ->
  get_Copeland_winners cc = Ok ws -> get_Copeland_winners cc' = Ok ws' ->
  (forall c, dget c (cc_winlosstie cc') = dget c (cc_winlosstie cc)) /\ Permutation ws ws'.
Proof.
  intros m m' cc cc' ws ws' T T' P Hl E0 E0' E1 E1'.
  assert (Pc : Permutation (cands m) (cands m')) by (apply Permutation_map; exact P).
  assert (V : forall a b, votes_over m' a b = votes_over m a b) by (intros; unfold votes_over; rewrite Hl; reflexivity).
  assert (D0 : forall c, dget c (cc_winlosstie cc') = dget c (cc_winlosstie cc)).
  { destruct (C05_winlosstie_exact m cc T E0) as [P1 [_ X]]. destruct (C05_winlosstie_exact m' cc' T' E0') as [P1' [_ X']].
    intro c. destruct (memb c (cands m)) eqn:Ec.
    - apply memb_In in Ec. rewrite (X c Ec), (X' c (Permutation_in _ Pc Ec)).
      assert (Q : forall p q : str -> bool, (forall x, p x = q x) ->
                count p (others c (cands m')) = count q (others c (cands m))).
      { intros p q Hpq. rewrite (count_ext _ _ _ Hpq). apply count_perm. unfold others. apply Permutation_filter', Permutation_sym, Pc. }
      f_equal. unfold beats, ties_with. f_equal; [| |f_equal]; apply Q; intro x; rewrite !V; reflexivity.
    - apply memb_nIn in Ec. rewrite (proj2 (dget_None c (cc_winlosstie cc))), (proj2 (dget_None c (cc_winlosstie cc'))); [reflexivity| |].
      + intro H. apply Ec, (Permutation_in _ (Permutation_sym Pc)), (Permutation_in _ P1'), H.
      + intro H. apply Ec, (Permutation_in _ P1), H. }
  split; [exact D0|].
  destruct (C06_winners_are_argmax m cc ws T E0 E1) as [_ [N X]].
  destruct (C06_winners_are_argmax m' cc' ws' T' E0' E1') as [_ [N' X']].
  apply NoDup_Permutation; [exact N|exact N'|]. intro c. rewrite X, X'. unfold score2.
  split; intros [Hc [s [Hs Hm]]].
  - split; [apply (Permutation_in _ Pc Hc)|]. exists s. rewrite D0. split; [exact Hs|].
    intros c' s' Hc' Hs'. rewrite D0 in Hs'. apply (Hm c' s'); [apply (Permutation_in _ (Permutation_sym Pc) Hc')|exact Hs'].
  - split; [apply (Permutation_in _ (Permutation_sym Pc) Hc)|]. exists s. rewrite <- D0. split; [exact Hs|].
    intros c' s' Hc' Hs'. rewrite <- D0 in Hs'. apply (Hm c' s'); [apply (Permutation_in _ Pc Hc')|exact Hs'].
Qed.
Print Assumptions C68_candidate_order.

Definition sample_tied (flip : bool) : jabmod :=
  Jabmod [] (if flip then [(C, C); (A, A); (B, B)] else [(A, A); (B, B); (C, C)])
    [ vl 2 [(A, ranked 1); (B, ranked 2); (C, ranked 3)]; vl 2 [(B, ranked 1); (A, ranked 2)] ].
Example C68_candidate_order_nonvacuous :
  Permutation (j_candidates (sample_tied false)) (j_candidates (sample_tied true)) /\
  tallyable (sample_tied false) /\ tallyable (sample_tied true) /\
  exists cc, full_copecount (sample_tied true) = Ok cc /\ get_Copeland_winners cc = Ok [A; B].
Proof.
  split; [apply Permutation_sym, (Permutation_middle [(A, A); (B, B)] [] (C, C))|].
  split; [split; [nodup|intros l Hl; simpl in Hl; intuition (subst; reflexivity)]|].
  split; [split; [nodup|intros l Hl; simpl in Hl; intuition (subst; reflexivity)]|].
  eexists. split; vm_compute; reflexivity.
Qed.

(** ** Homogeneity: multiplying every quantity by the same positive number changes no result. *)
Definition multiplied (k : Z) (m : jabmod) : jabmod :=
  with_lines m (map (fun l => with_qty l (k * v_qty l)) (j_votelines m)).

Lemma votes_multiplied k m a b : votes_over (multiplied k m) a b = k * votes_over m a b.
Proof.
  unfold votes_over, ballots_where, multiplied. cbn [with_lines j_votelines]. rewrite map_map, <- zsum_map_scale.
  apply zsum_map_ext. intros l _. change (prefers (with_qty l (k * v_qty l)) a b) with (prefers l a b).
  cbn [with_qty v_qty]. destruct (prefers l a b); lia.
Qed.

Lemma tallyable_multiplied k m : tallyable m -> tallyable (multiplied k m).
Proof.
  intros [H1 H2]. split; [exact H1|]. intros l Hl. unfold multiplied in Hl. cbn [with_lines j_votelines] in Hl.
  apply in_map_iff in Hl as [l0 [<- Hl]]. exact (H2 l0 Hl).
Qed.

Theorem C68_homogeneous : forall k m cc, 0 < k -> tallyable m -> full_copecount m = Ok cc ->
  exists cc', full_copecount (multiplied k m) = Ok cc' /\
    cc_winlosstie cc' = cc_winlosstie cc /\ get_Copeland_winners cc' = get_Copeland_winners cc /\
    forall a b, In a (cands m) -> In b (cands m) -> a <> b ->
      mat_get a b (cc_winningvotes cc') = Some (Some (k * votes_over m a b)).
Proof.
  intros k m cc Hk T E0. pose proof (tallyable_multiplied k m T) as T'.
  destruct (C05_copecount_total _ T') as [cc' E0']. exists cc'. split; [exact E0'|].
  assert (EW : cc_winlosstie cc' = cc_winlosstie cc).
  { rewrite (full_copecount_exact m cc T E0), (full_copecount_exact _ cc' T' E0').
    change (cands (multiplied k m)) with (cands m). f_equal. apply dmap_ext. intros c _. unfold wlt_of, beats, ties_with.
    f_equal; [| |f_equal]; apply count_ext; intro x; rewrite !votes_multiplied.
    - destruct (Z.ltb_spec (k * votes_over m x c) (k * votes_over m c x)), (Z.ltb_spec (votes_over m x c) (votes_over m c x)); nia.
    - destruct (Z.ltb_spec (k * votes_over m c x) (k * votes_over m x c)), (Z.ltb_spec (votes_over m c x) (votes_over m x c)); nia.
    - destruct (Z.eqb_spec (k * votes_over m x c) (k * votes_over m c x)), (Z.eqb_spec (votes_over m x c) (votes_over m c x)); nia. }
  split; [exact EW|]. split.
  - unfold get_Copeland_winners, calc_Copeland_scores. rewrite EW. reflexivity.
  - intros a b Ha Hb n. unfold full_copecount in E0'. apply bind_ok in E0' as [pm [Ep E0']].
    apply bind_ok in E0' as [w [_ E0']]. apply ok_inj in E0'. subst cc'. cbn [cc_winningvotes].
    destruct (C01_cells _ pm T' Ep) as (_&_&X&_). rewrite (X a b Ha Hb n), votes_multiplied. reflexivity.
Qed.
Print Assumptions C68_homogeneous.

(** ** Counting two sets of ballots together adds the cells. *)
Theorem C68_joint_count : forall m1 m2 pm1 pm2, j_candidates m2 = j_candidates m1 ->
  tallyable m1 -> tallyable m2 -> pairwise_count_dict m1 = Ok pm1 -> pairwise_count_dict m2 = Ok pm2 ->
  exists pm, pairwise_count_dict (with_lines m1 (j_votelines m1 ++ j_votelines m2)) = Ok pm /\
    map fst pm = cands m1 /\
    forall a b x y, a <> b -> mat_get a b pm1 = Some (Some x) -> mat_get a b pm2 = Some (Some y) ->
      mat_get a b pm = Some (Some (x + y)).
Proof.
  intros m1 m2 pm1 pm2 Hc T1 T2 E1 E2.
  assert (Hcs : cands m2 = cands m1) by (unfold cands; rewrite Hc; reflexivity).
  assert (T : tallyable (with_lines m1 (j_votelines m1 ++ j_votelines m2))).
  { split; [apply T1|]. intros l Hl. cbn [with_lines j_votelines] in Hl. apply in_app_or in Hl as [Hl|Hl];
      [apply (proj2 T1 l Hl)|apply (proj2 T2 l Hl)]. }
  eexists. split; [apply C01_pairwise_exact; exact T|]. split; [apply (dkeys_dmap (cands m1))|].
  intros a b x y n H1 H2.
  rewrite (C01_pairwise_exact m1 T1) in E1. apply ok_inj in E1. subst pm1.
  rewrite (C01_pairwise_exact m2 T2) in E2. apply ok_inj in E2. subst pm2.
  assert (Ha : In a (cands m1)).
  { unfold mat_get in H1. rewrite matrix_dmap, dget_dmap in H1. destruct (memb a (cands m1)) eqn:Ea; [apply memb_In; exact Ea|discriminate]. }
  assert (Hb : In b (cands m1)).
  { unfold mat_get in H1. rewrite matrix_dmap, dget_dmap, (proj2 (memb_In _ _) Ha), dget_dmap in H1.
    destruct (memb b (cands m1)) eqn:Eb; [apply memb_In; exact Eb|discriminate]. }
  rewrite mat_get_matrix in H1 by assumption. rewrite mat_get_matrix in H2 by (rewrite Hcs; assumption).
  rewrite (proj2 (str_eqb_neq _ _) n) in H1, H2. repeat apply some_inj in H1. repeat apply some_inj in H2. subst x y.
  rewrite mat_get_matrix by assumption. rewrite (proj2 (str_eqb_neq _ _) n). do 2 f_equal.
  unfold votes_over, ballots_where. cbn [with_lines j_votelines]. rewrite map_app, zsum_app. reflexivity.
Qed.
Print Assumptions C68_joint_count.

Example C68_joint_nonvacuous : exists pm, pairwise_count_dict (with_lines sample (j_votelines sample ++ j_votelines sample)) = Ok pm /\
  mat_get C B pm = Some (Some 58).
Proof. eexists. split; vm_compute; reflexivity. Qed.

(** ** Reversing every ballot.  A method that counts a tie as half a win cannot elect the same single
    candidate from a set of complete ballots and from the same ballots upside down.  This one can: a tie earns as much as a win (C05, C09).  Here A ties with everybody
    while B, C and D beat each other in a circle, so A wins alone; with all ballots reversed A wins
    alone again. *)
Definition reversed_line (n : Z) (l : voteline) : voteline :=
  with_prefs l (map (fun kv => (fst kv, match p_rank (snd kv) with
                                        | Some r => ranked (n + 1 - r) | None => snd kv end)) (v_prefs l)).
Definition reversed (n : Z) (m : jabmod) : jabmod := with_lines m (map (reversed_line n) (j_votelines m)).

Definition order4 (q : Z) (a b c d : str) : voteline :=
  vl q [(a, ranked 1); (b, ranked 2); (c, ranked 3); (d, ranked 4)].
Definition reversal_election : jabmod := Jabmod [] [(A, A); (B, B); (C, C); (D, D)]
  [ order4 1 A B C D; order4 1 C D B A; order4 1 A C D B; order4 1 D B C A; order4 1 A D B C; order4 1 B C D A ].

Theorem C68_reversal_refuted :
  tallyable reversal_election /\ tallyable (reversed 4 reversal_election) /\
  (forall a b, In a (cands reversal_election) -> In b (cands reversal_election) ->
     votes_over (reversed 4 reversal_election) a b = votes_over reversal_election b a) /\
  (exists cc, full_copecount reversal_election = Ok cc /\ get_Copeland_winners cc = Ok [A]) /\
  (exists cc, full_copecount (reversed 4 reversal_election) = Ok cc /\ get_Copeland_winners cc = Ok [A]).
Proof.
  split; [split; [nodup|intros l Hl; simpl in Hl; intuition (subst; reflexivity)]|].
  split; [split; [nodup|intros l Hl; simpl in Hl; intuition (subst; reflexivity)]|].
  split; [|split; eexists; split; vm_compute; reflexivity].
  intros a b Ha Hb. cbn in Ha, Hb.
  repeat (destruct Ha as [<-|Ha]; [repeat (destruct Hb as [<-|Hb]; [vm_compute; reflexivity|]); contradiction|]).
  contradiction.
Qed.
Print Assumptions C68_reversal_refuted.

(** What does hold: if no two candidates tie, the reversed ballots do not elect a single winner of the
    original count again, as long as there are two candidates. *)
Theorem C68_reversal_without_ties : forall m m' cc cc' w, tallyable m -> tallyable m' ->
  cands m' = cands m -> (2 <= length (cands m))%nat ->
  (forall a b, In a (cands m) -> In b (cands m) -> votes_over m' a b = votes_over m b a) ->
  (forall a b, In a (cands m) -> In b (cands m) -> a <> b -> votes_over m a b <> votes_over m b a) ->
  full_copecount m = Ok cc -> full_copecount m' = Ok cc' ->
  get_Copeland_winners cc = Ok [w] -> forall ws, get_Copeland_winners cc' = Ok ws -> ~ In w ws.
Proof.
  intros m m' cc cc' w T T' Hcs Hl Hv Ht E0 E0' E1 ws E1' Hw.
  destruct (C06_winners_are_argmax m cc [w] T E0 E1) as [_ [_ X]].
  destruct (C06_winners_are_argmax m' cc' ws T' E0' E1') as [_ [_ X']].
  assert (Hwc : In w (cands m)) by (apply X; left; reflexivity).
  destruct (proj1 (X w) (or_introl eq_refl)) as [_ [s [Hs Hm]]].
  apply X' in Hw as [_ [s' [Hs' Hm']]].
  assert (Ho : exists b, In b (cands m) /\ b <> w).
  { destruct T as [Hn _]. destruct (cands m) as [|x [|y r]]; simpl in Hl; try lia.
    destruct (str_eqb_spec x w) as [->|n]; [|exists x; split; [left; reflexivity|exact n]].
    exists y. split; [right; left; reflexivity|]. intros ->. inversion Hn as [|? ? Hx _]; subst. apply Hx; left; reflexivity. }
  destruct Ho as [b [Hb Hbw]].
  assert (Sum : forall c, In c (cands m) -> forall z z', score2 cc c = Some z -> score2 cc' c = Some z' ->
            z + z' = 2 * (Z.of_nat (length (cands m)) - 1)).
  { intros c Hc z z' Hz Hz'. rewrite (score2_count m cc c T E0 Hc) in Hz. apply some_inj in Hz.
    rewrite (score2_count m' cc' c T' E0') in Hz' by (rewrite Hcs; exact Hc). apply some_inj in Hz'. rewrite Hcs in Hz'.
    subst z z'. rewrite <- Z.mul_add_distr_l. f_equal.
    rewrite <- (others_length (cands m) (proj1 T) c Hc). rewrite !count_zsum, <- zsum_map_add.
    rewrite (zsum_map_ext _ (fun _ => 1)); [rewrite zsum_map_const; lia|].
    intros x Hx. apply filter_In in Hx as [Hx Hxc]. apply negb_true_iff, str_eqb_neq in Hxc.
    specialize (Ht c x Hc Hx Hxc). unfold beats, b2z. rewrite (Hv c x Hc Hx), (Hv x c Hx Hc).
    destruct (Z.ltb_spec (votes_over m c x) (votes_over m x c)), (Z.ltb_spec (votes_over m x c) (votes_over m c x)); simpl; lia. }
  pose proof (score2_count m cc b T E0 Hb) as Zb.
  assert (Hb' : In b (cands m')) by (rewrite Hcs; exact Hb).
  pose proof (score2_count m' cc' b T' E0' Hb') as Zb'.
  pose proof (Hm b _ Hb Zb) as L. pose proof (Hm' b _ Hb' Zb') as L'.
  pose proof (Sum b Hb _ _ Zb Zb') as S1. pose proof (Sum w Hwc _ _ Hs Hs') as S2.
  assert (Hbw' : In b [w]).
  { apply X. split; [exact Hb|]. eexists. split; [exact Zb|]. intros c z Hc Hz. specialize (Hm c z Hc Hz). lia. }
  destruct Hbw' as [<-|[]]. congruence.
Qed.
Print Assumptions C68_reversal_without_ties.

(** The sample without its truncated ballots has no ties; its reversal elects somebody else. *)
Definition three_orders : jabmod := Jabmod [] [(A, A); (B, B); (C, C)]
  [ vl 3 [(A, ranked 1); (B, ranked 2); (C, ranked 3)]; vl 2 [(C, ranked 1); (A, ranked 2); (B, ranked 3)] ].
Example C68_reversal_nonvacuous :
  (exists cc, full_copecount three_orders = Ok cc /\ get_Copeland_winners cc = Ok [A]) /\
  (forall a b, In a (cands three_orders) -> In b (cands three_orders) ->
     votes_over (reversed 3 three_orders) a b = votes_over three_orders b a) /\
  (forall a b, In a (cands three_orders) -> In b (cands three_orders) -> a <> b ->
     votes_over three_orders a b <> votes_over three_orders b a) /\
  (exists cc, full_copecount (reversed 3 three_orders) = Ok cc /\ get_Copeland_winners cc = Ok [C]).
Proof.
  split; [eexists; split; vm_compute; reflexivity|].
  split; [|split; [|eexists; split; vm_compute; reflexivity]]; intros a b Ha Hb; cbn in Ha, Hb.
  - repeat (destruct Ha as [<-|Ha]; [repeat (destruct Hb as [<-|Hb]; [vm_compute; reflexivity|]); contradiction|]).
    contradiction.
  - repeat (destruct Ha as [<-|Ha]; [repeat (destruct Hb as [<-|Hb]; [intro n; first [contradiction (n eq_refl)|vm_compute; discriminate]|]); contradiction|]).
    contradiction.
Qed.
