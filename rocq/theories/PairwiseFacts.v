(** * PairwiseFacts: lemmas about abiflib/pairwise.py *)

From Verif Require Import PyBase PyFacts Jabmod PairwiseModel Spec.
Local Open Scope Z_scope.

Lemma matrix_dmap {V} cs (f : str -> str -> V) : matrix cs f = dmap cs (fun a => dmap cs (f a)).
Proof. reflexivity. Qed.

Lemma matrix_ext {V} cs (f g : str -> str -> V) :
  (forall a b, In a cs -> In b cs -> f a b = g a b) -> matrix cs f = matrix cs g.
Proof. intro H. rewrite !matrix_dmap. apply dmap_ext. intros a Ha. apply dmap_ext. auto. Qed.

Lemma mat_get_matrix cs f a b :
  In a cs -> In b cs -> mat_get a b (matrix cs f) = Some (f a b).
Proof.
  intros Ha Hb. unfold mat_get. rewrite matrix_dmap, dget_dmap, (proj2 (memb_In _ _) Ha).
  rewrite dget_dmap, (proj2 (memb_In _ _) Hb). reflexivity.
Qed.

Lemma mat_getE_matrix cs f a b :
  In a cs -> In b cs -> mat_getE a b (matrix cs f) = Ok (f a b).
Proof.
  intros Ha Hb. unfold mat_getE, dgetE. rewrite matrix_dmap, dget_dmap, (proj2 (memb_In _ _) Ha). simpl.
  rewrite dget_dmap, (proj2 (memb_In _ _) Hb). reflexivity.
Qed.

Definition upd {V} (f : str -> str -> V) (a b : str) (v : V) : str -> str -> V :=
  fun x y => if str_eqb a x && str_eqb b y then v else f x y.

Lemma mat_set_matrix cs f a b v :
  NoDup cs -> In a cs -> In b cs -> mat_set a b v (matrix cs f) = matrix cs (upd f a b v).
Proof.
  intros Hn Ha Hb. unfold mat_set. rewrite matrix_dmap, dget_dmap, (proj2 (memb_In _ _) Ha).
  rewrite (dset_dmap b) by assumption. rewrite (dset_dmap a) by assumption.
  rewrite matrix_dmap. apply dmap_ext. intros x Hx.
  destruct (str_eqb_spec a x) as [->|n].
  - apply dmap_ext. intros y Hy. unfold upd. rewrite str_eqb_refl. simpl. reflexivity.
  - apply dmap_ext. intros y Hy. unfold upd. rewrite (proj2 (str_eqb_neq _ _) n). reflexivity.
Qed.

Lemma fold_left_ext {A B} (f g : A -> B -> A) l a :
  (forall x y, In y l -> f x y = g x y) -> fold_left f l a = fold_left g l a.
Proof.
  revert a; induction l as [|y r IH]; intros a H; simpl; [reflexivity|].
  rewrite H by (left; reflexivity). apply IH. intros; apply H; right; assumption.
Qed.

Lemma pair_init_matrix cs :
  NoDup cs -> pair_init cs = matrix cs (fun a b => if str_eqb a b then None else Some 0).
Proof.
  intro Hn. unfold pair_init. rewrite matrix_dmap.
  rewrite (fold_left_ext _ (fun m a => dset a (dmap cs (fun b => if str_eqb a b then None else Some 0)) m)).
  - apply (fold_dset_dmap (fun a => dmap cs (fun b => if str_eqb a b then None else Some 0)) cs []). exact Hn.
  - intros m a _. f_equal. apply (fold_dset_dmap (fun b => if str_eqb a b then None else Some 0) cs []). exact Hn.
Qed.

(** What a line does to one off-diagonal cell. *)
Definition cell_after (l : voteline) (a b : str) (x : Z) : Z :=
  match line_rank (v_prefs l) a, line_rank (v_prefs l) b with
  | Some ra, Some rb => if ra <? rb then x + v_qty l else x
  | _, _ => 0
  end.

Definition offdiag (f : str -> str -> Z) : str -> str -> option Z :=
  fun a b => if str_eqb a b then None else Some (f a b).

Lemma pair_cell_step_ok cs f l a b :
  NoDup cs -> In a cs -> In b cs ->
  pair_cell_step (v_qty l) (v_prefs l) a b (matrix cs (offdiag f)) =
  Ok (matrix cs (offdiag (upd f a b (cell_after l a b (f a b))))).
Proof.
  intros Hn Ha Hb. unfold pair_cell_step.
  destruct (str_eqb_spec a b) as [->|n].
  - rewrite mat_set_matrix by assumption. f_equal. apply matrix_ext. intros x y _ _.
    unfold upd, offdiag. destruct (str_eqb_spec b x) as [->|]; simpl; [|reflexivity].
    destruct (str_eqb x y); reflexivity.
  - unfold cell_after.
    destruct (line_rank (v_prefs l) a) as [ra|], (line_rank (v_prefs l) b) as [rb|].
    + destruct (ra <? rb).
      * rewrite mat_get_matrix by assumption. unfold offdiag at 1.
        rewrite (proj2 (str_eqb_neq _ _) n). rewrite mat_set_matrix by assumption. f_equal.
        apply matrix_ext. intros x y _ _. unfold upd, offdiag.
        destruct (str_eqb_spec a x) as [->|]; simpl; [|reflexivity].
        destruct (str_eqb_spec b y) as [->|]; [|reflexivity].
        rewrite (proj2 (str_eqb_neq _ _) n). reflexivity.
      * f_equal. apply matrix_ext. intros x y _ _. unfold upd, offdiag.
        destruct (str_eqb_spec a x) as [->|]; simpl; [|reflexivity].
        destruct (str_eqb_spec b y) as [->|]; reflexivity.
    + rewrite mat_set_matrix by assumption. f_equal. apply matrix_ext. intros x y _ _.
      unfold upd, offdiag. destruct (str_eqb_spec a x) as [->|]; simpl; [|reflexivity].
      destruct (str_eqb_spec b y) as [->|]; [|reflexivity].
      rewrite (proj2 (str_eqb_neq _ _) n). reflexivity.
    + rewrite mat_set_matrix by assumption. f_equal. apply matrix_ext. intros x y _ _.
      unfold upd, offdiag. destruct (str_eqb_spec a x) as [->|]; simpl; [|reflexivity].
      destruct (str_eqb_spec b y) as [->|]; [|reflexivity].
      rewrite (proj2 (str_eqb_neq _ _) n). reflexivity.
    + rewrite mat_set_matrix by assumption. f_equal. apply matrix_ext. intros x y _ _.
      unfold upd, offdiag. destruct (str_eqb_spec a x) as [->|]; simpl; [|reflexivity].
      destruct (str_eqb_spec b y) as [->|]; [|reflexivity].
      rewrite (proj2 (str_eqb_neq _ _) n). reflexivity.
Qed.

Lemma pair_row_step_ok cs l a bs f :
  NoDup cs -> In a cs -> NoDup bs -> incl bs cs ->
  foldM (fun m b => pair_cell_step (v_qty l) (v_prefs l) a b m) bs (matrix cs (offdiag f)) =
  Ok (matrix cs (offdiag (fun x y => if str_eqb a x && memb y bs then cell_after l x y (f x y) else f x y))).
Proof.
  intros Hn Ha. revert f. induction bs as [|b r IH]; intros f Hb Hi; simpl.
  - f_equal. apply matrix_ext. intros x y _ _. unfold offdiag. rewrite andb_false_r. reflexivity.
  - inversion Hb as [|? ? Hbr Hr]; subst. rewrite pair_cell_step_ok; [|assumption..|apply Hi; left; reflexivity].
    simpl. rewrite IH; [|exact Hr|intros z Hz; apply Hi; right; exact Hz].
    f_equal. apply matrix_ext. intros x y _ _. unfold offdiag, upd.
    destruct (str_eqb_spec x y); [reflexivity|]. f_equal.
    destruct (str_eqb_spec a x) as [->|]; simpl; [|reflexivity].
    rewrite (str_eqb_sym y b). destruct (str_eqb_spec b y) as [->|]; simpl; [|reflexivity].
    rewrite (proj2 (memb_nIn _ _) Hbr). reflexivity.
Qed.

Lemma pair_line_step_ok cs l f :
  NoDup cs ->
  pair_line_step cs (matrix cs (offdiag f)) l =
  Ok (matrix cs (offdiag (fun a b => cell_after l a b (f a b)))).
Proof.
  intro Hn. unfold pair_line_step.
  assert (G : forall xs f, NoDup xs -> incl xs cs ->
    foldM (fun m a => foldM (fun m b => pair_cell_step (v_qty l) (v_prefs l) a b m) cs m) xs (matrix cs (offdiag f)) =
    Ok (matrix cs (offdiag (fun a b => if memb a xs then cell_after l a b (f a b) else f a b)))).
  { induction xs as [|x r IH]; intros g Hx Hi; simpl; [reflexivity|].
    inversion Hx as [|? ? Hxr Hr]; subst.
    rewrite pair_row_step_ok; [|assumption|apply Hi; left; reflexivity|assumption|apply incl_refl].
    simpl. rewrite IH; [|exact Hr|intros z Hz; apply Hi; right; exact Hz].
    f_equal. apply matrix_ext. intros a b Ha Hb. unfold offdiag.
    destruct (str_eqb_spec a b); [reflexivity|]. f_equal.
    rewrite (proj2 (memb_In b cs) Hb), andb_true_r, (str_eqb_sym a x).
    destruct (str_eqb_spec x a) as [->|]; simpl; [|reflexivity].
    rewrite (proj2 (memb_nIn _ _) Hxr). reflexivity. }
  rewrite G; [|exact Hn|apply incl_refl]. f_equal. apply matrix_ext. intros a b Ha Hb.
  unfold offdiag. rewrite (proj2 (memb_In _ _) Ha). reflexivity.
Qed.

Lemma pair_lines_ok cs ls f :
  NoDup cs ->
  foldM (pair_line_step cs) ls (matrix cs (offdiag f)) =
  Ok (matrix cs (offdiag (fun a b => fold_left (fun x l => cell_after l a b x) ls (f a b)))).
Proof.
  intro Hn. revert f. induction ls as [|l r IH]; intro f; simpl; [reflexivity|].
  rewrite pair_line_step_ok by exact Hn. simpl. apply IH.
Qed.

Lemma pairwise_exact m :
  NoDup (cands m) ->
  pairwise_count_dict m =
  Ok (matrix (cands m) (offdiag (fun a b => fold_left (fun x l => cell_after l a b x) (j_votelines m) 0))).
Proof.
  intro Hn. unfold pairwise_count_dict. change (dkeys (j_candidates m)) with (cands m).
  rewrite pair_init_matrix by exact Hn. apply (pair_lines_ok (cands m) (j_votelines m) (fun _ _ => 0)); exact Hn.
Qed.

(** ** Lines with missing ranks *)

(** A candidate listed on the line without a rank. *)
Definition listed_unranked (l : voteline) (c : str) : bool :=
  match dget c (v_prefs l) with Some p => match p_rank p with None => true | _ => false end | None => false end.

Lemma line_rank_None l c : line_rank (v_prefs l) c = None <-> listed_unranked l c = true.
Proof.
  unfold line_rank, listed_unranked. destruct (dget c (v_prefs l)) as [p|]; [|split; discriminate].
  destruct (p_rank p); split; congruence.
Qed.

(** Ranks present on the line are below sys.maxsize. *)
Definition ranks_below (bound : Z) (l : voteline) : bool :=
  forallb (fun kv => match p_rank (snd kv) with Some r => r <? bound | None => true end) (v_prefs l).

Lemma ranks_below_get bound l c p r :
  ranks_below bound l = true -> dget c (v_prefs l) = Some p -> p_rank p = Some r -> r < bound.
Proof.
  intros H Hg Hr. unfold ranks_below in H. rewrite forallb_forall in H.
  specialize (H _ (dget_In _ _ _ Hg)). simpl in H. rewrite Hr in H. lia.
Qed.

Lemma cell_after_ranked l a b x :
  ranks_below maxsize l = true -> listed_unranked l a = false -> listed_unranked l b = false ->
  cell_after l a b x = x + (if prefers l a b then v_qty l else 0).
Proof.
  intros Hm Ha Hb. unfold cell_after, prefers, rank_on, line_rank, listed_unranked in *.
  destruct (dget a (v_prefs l)) as [pa|] eqn:Ea; destruct (dget b (v_prefs l)) as [pb|] eqn:Eb.
  - destruct (p_rank pa), (p_rank pb); try discriminate. destruct (_ <? _); lia.
  - destruct (p_rank pa) as [ra|] eqn:Ra; try discriminate.
    pose proof (ranks_below_get _ _ _ _ _ Hm Ea Ra). destruct (ra <? maxsize) eqn:E; lia.
  - destruct (p_rank pb) as [rb|] eqn:Rb; try discriminate.
    pose proof (ranks_below_get _ _ _ _ _ Hm Eb Rb). destruct (maxsize <? rb) eqn:E; lia.
  - rewrite Z.ltb_irrefl. lia.
Qed.

Lemma cell_after_unranked l a b x :
  listed_unranked l a || listed_unranked l b = true -> cell_after l a b x = 0.
Proof.
  intro H. unfold cell_after. apply orb_prop in H as [H|H]; apply line_rank_None in H; rewrite H.
  - reflexivity.
  - destruct (line_rank (v_prefs l) a); reflexivity.
Qed.

(** The votelines after the last one that lists [a] or [b] without a rank. *)
Fixpoint since_reset (a b : str) (ls : list voteline) : list voteline :=
  match ls with
  | [] => []
  | l :: r =>
      if existsb (fun l' => listed_unranked l' a || listed_unranked l' b) r then since_reset a b r
      else if listed_unranked l a || listed_unranked l b then r else l :: r
  end.

Lemma cells_no_reset a b ls x :
  forallb (ranks_below maxsize) ls = true ->
  existsb (fun l => listed_unranked l a || listed_unranked l b) ls = false ->
  fold_left (fun x l => cell_after l a b x) ls x = x + ballots_where (fun l => prefers l a b) ls.
Proof.
  revert x; induction ls as [|l r IH]; intros x Hm He; simpl in *; [unfold ballots_where; simpl; lia|].
  apply andb_prop in Hm as [Hm1 Hm2]. apply orb_false_elim in He as [He1 He2].
  apply orb_false_elim in He1 as [Ha Hb].
  rewrite IH by assumption. rewrite cell_after_ranked by assumption.
  unfold ballots_where; simpl. lia.
Qed.

Lemma cells_reset a b ls x :
  forallb (ranks_below maxsize) ls = true ->
  existsb (fun l => listed_unranked l a || listed_unranked l b) ls = true ->
  fold_left (fun x l => cell_after l a b x) ls x = ballots_where (fun l => prefers l a b) (since_reset a b ls).
Proof.
  revert x; induction ls as [|l r IH]; intros x Hm He; simpl in *; [discriminate|].
  apply andb_prop in Hm as [Hm1 Hm2].
  destruct (existsb (fun l' => listed_unranked l' a || listed_unranked l' b) r) eqn:E.
  - apply IH; auto.
  - rewrite orb_false_r in He. rewrite He. rewrite cells_no_reset by assumption.
    rewrite cell_after_unranked by exact He. lia.
Qed.

Lemma since_reset_none a b ls :
  existsb (fun l => listed_unranked l a || listed_unranked l b) ls = false -> since_reset a b ls = ls.
Proof.
  destruct ls as [|l r]; simpl; [reflexivity|]. intro H. apply orb_false_elim in H as [H1 H2].
  rewrite H1, H2. reflexivity.
Qed.

Lemma pairwise_general m :
  NoDup (cands m) -> forallb (ranks_below maxsize) (j_votelines m) = true ->
  pairwise_count_dict m =
  Ok (matrix (cands m) (fun a b => if str_eqb a b then None
        else Some (ballots_where (fun l => prefers l a b) (since_reset a b (j_votelines m))))).
Proof.
  intros Hn Hm. rewrite pairwise_exact by exact Hn. f_equal. apply matrix_ext. intros a b _ _.
  unfold offdiag. destruct (str_eqb a b); [reflexivity|]. f_equal.
  destruct (existsb (fun l => listed_unranked l a || listed_unranked l b) (j_votelines m)) eqn:E.
  - apply cells_reset; assumption.
  - rewrite since_reset_none by exact E. rewrite cells_no_reset by assumption. lia.
Qed.

Lemma line_ranked_below bound l : line_ranked bound l = true -> ranks_below bound l = true.
Proof.
  unfold line_ranked, ranks_below. rewrite !forallb_forall. intros H kv Hkv. specialize (H kv Hkv).
  destruct (p_rank (snd kv)); congruence.
Qed.

Lemma line_ranked_not_unranked bound l c : line_ranked bound l = true -> listed_unranked l c = false.
Proof.
  unfold line_ranked, listed_unranked. rewrite forallb_forall. intro H.
  destruct (dget c (v_prefs l)) as [p|] eqn:E; [|reflexivity].
  specialize (H _ (dget_In _ _ _ E)). simpl in H. destruct (p_rank p); [reflexivity|discriminate].
Qed.

Lemma existsb_false {A} (p : A -> bool) l : (forall x, In x l -> p x = false) -> existsb p l = false.
Proof.
  induction l as [|x r IH]; intro H; simpl; [reflexivity|].
  rewrite (H x) by (left; reflexivity). apply IH; intros; apply H; right; assumption.
Qed.

Lemma pairwise_tally m :
  NoDup (cands m) -> forallb (line_ranked maxsize) (j_votelines m) = true ->
  pairwise_count_dict m =
  Ok (matrix (cands m) (fun a b => if str_eqb a b then None else Some (votes_over m a b))).
Proof.
  intros Hn Hr. rewrite forallb_forall in Hr. rewrite pairwise_general; [|exact Hn|].
  - f_equal. apply matrix_ext. intros a b _ _. destruct (str_eqb a b); [reflexivity|].
    rewrite since_reset_none; [reflexivity|]. apply existsb_false. intros l Hl.
    rewrite !(line_ranked_not_unranked maxsize) by auto. reflexivity.
  - apply forallb_forall. intros l Hl. apply line_ranked_below; auto.
Qed.

(** ** Accounting *)

Lemma prefers_asym l a b : prefers l a b = true -> prefers l b a = false.
Proof. unfold prefers. destruct (rank_on l a), (rank_on l b); intro; try discriminate; try reflexivity. lia. Qed.

Lemma prefers_trans l a b c : prefers l a b = true -> prefers l b c = true -> prefers l a c = true.
Proof.
  unfold prefers. destruct (rank_on l a), (rank_on l b), (rank_on l c); intros; try discriminate; try reflexivity.
  lia.
Qed.

Lemma ballots_where_add (p q r : voteline -> bool) ls :
  (forall l, In l ls -> ((if p l then 1 else 0) + (if q l then 1 else 0) = (if r l then 1 else 0))) ->
  ballots_where p ls + ballots_where q ls = ballots_where r ls.
Proof.
  unfold ballots_where. intro H. rewrite <- zsum_map_add. apply zsum_map_ext. intros l Hl.
  specialize (H l Hl). destruct (p l), (q l), (r l); lia.
Qed.

Lemma ballots_where_true m : ballots_where (fun _ => true) (j_votelines m) = total_ballots m.
Proof. reflexivity. Qed.

Lemma pair_accounting m a b :
  votes_over m a b + votes_over m b a
  + ballots_where (fun l => negb (prefers l a b) && negb (prefers l b a)) (j_votelines m)
  = total_ballots m.
Proof.
  unfold votes_over, total_ballots, ballots_where. rewrite <- !zsum_map_add. apply zsum_map_ext. intros l _.
  destruct (prefers l a b) eqn:E; simpl.
  - rewrite (prefers_asym l a b E). lia.
  - destruct (prefers l b a); simpl; lia.
Qed.

Lemma ballots_where_nonneg p ls : (forall l, In l ls -> 0 <= v_qty l) -> 0 <= ballots_where p ls.
Proof.
  intro H. apply zsum_nonneg. intros x Hx. apply in_map_iff in Hx as [l [<- Hl]].
  specialize (H l Hl). destruct (p l); lia.
Qed.

Lemma ballots_where_perm p ls ls' : Permutation ls ls' -> ballots_where p ls = ballots_where p ls'.
Proof. intro H. apply zsum_perm. apply Permutation_map; exact H. Qed.

(** ** Win-loss-tie *)

Section WLT.
Variable cs : list str.
Hypothesis Hn : NoDup cs.
Variable v : str -> str -> Z.

Let pd := matrix cs (offdiag v).

(** Effect of visiting the ordered pair (a,b) on candidate [c]'s record. *)
Definition wlt_step (a b c : str) (w : wlt) : wlt :=
  if str_eqb a b then w
  else if v a b >? v b a then
    (if str_eqb c a then inc_wins w else if str_eqb c b then inc_losses w else w)
  else if v a b =? v b a then
    (if str_eqb c a then inc_ties w else if str_eqb c b then inc_ties w else w)
  else w.

Lemma wlt_cell_step_ok a b g :
  In a cs -> In b cs ->
  wlt_cell_step pd a b (dmap cs g) = Ok (dmap cs (fun c => wlt_step a b c (g c))).
Proof.
  intros Ha Hb. unfold wlt_cell_step. unfold pd. rewrite !mat_getE_matrix by assumption. simpl.
  unfold offdiag. rewrite (str_eqb_sym b a). unfold wlt_step.
  destruct (str_eqb_spec a b) as [->|n]; [reflexivity|].
  destruct (v a b >? v b a); [|destruct (v a b =? v b a)].
  - rewrite dmodE_dmap by assumption. simpl. rewrite dmodE_dmap by assumption. f_equal.
    apply dmap_ext. intros c _. rewrite (str_eqb_sym c a), (str_eqb_sym c b).
    destruct (str_eqb_spec a c) as [->|]; [|reflexivity].
    destruct (str_eqb_spec b c) as [->|]; [congruence|reflexivity].
  - rewrite dmodE_dmap by assumption. simpl. rewrite dmodE_dmap by assumption. f_equal.
    apply dmap_ext. intros c _. rewrite (str_eqb_sym c a), (str_eqb_sym c b).
    destruct (str_eqb_spec a c) as [->|]; [|reflexivity].
    destruct (str_eqb_spec b c) as [->|]; [congruence|reflexivity].
  - reflexivity.
Qed.

Definition pairs (xs ys : list str) : list (str * str) :=
  flat_map (fun a => map (fun b => (a, b)) ys) xs.

Lemma wlt_loop_ok g :
  foldM (fun w a => foldM (fun w b => wlt_cell_step pd a b w) cs w) cs (dmap cs g) =
  Ok (dmap cs (fun c => fold_left (fun w ab => wlt_step (fst ab) (snd ab) c w) (pairs cs cs) (g c))).
Proof.
  assert (Row : forall a bs g, In a cs -> incl bs cs ->
    foldM (fun w b => wlt_cell_step pd a b w) bs (dmap cs g) =
    Ok (dmap cs (fun c => fold_left (fun w ab => wlt_step (fst ab) (snd ab) c w) (map (fun b => (a, b)) bs) (g c)))).
  { intros a bs. induction bs as [|b r IH]; intros g0 Ha Hi; simpl; [reflexivity|].
    rewrite wlt_cell_step_ok; [|exact Ha|apply Hi; left; reflexivity]. simpl.
    apply IH; [exact Ha|]. intros z Hz; apply Hi; right; exact Hz. }
  assert (G : forall xs g, incl xs cs ->
    foldM (fun w a => foldM (fun w b => wlt_cell_step pd a b w) cs w) xs (dmap cs g) =
    Ok (dmap cs (fun c => fold_left (fun w ab => wlt_step (fst ab) (snd ab) c w) (pairs xs cs) (g c)))).
  { induction xs as [|x r IH]; intros g0 Hi; simpl; [reflexivity|].
    rewrite Row; [|apply Hi; left; reflexivity|apply incl_refl]. simpl.
    rewrite IH by (intros z Hz; apply Hi; right; exact Hz). f_equal. apply dmap_ext. intros c _.
    rewrite fold_left_app. reflexivity. }
  apply G, incl_refl.
Qed.

Definition b2z (b : bool) : Z := if b then 1 else 0.

Lemma wlt_step_add a b c w :
  wlt_step a b c w =
  Wlt (wins w + (if str_eqb c a then b2z (negb (str_eqb a b) && beats v a b) else 0))
      (losses w + (if str_eqb c b then b2z (negb (str_eqb a b) && beats v a b) else 0))
      (ties w + ((if str_eqb c a then b2z (negb (str_eqb a b) && ties_with v a b) else 0)
               + (if str_eqb c b then b2z (negb (str_eqb a b) && ties_with v a b) else 0))).
Proof.
  unfold wlt_step, beats, ties_with, b2z, inc_wins, inc_losses, inc_ties.
  destruct w as [w l t]; simpl.
  destruct (str_eqb_spec a b) as [->|n]; simpl.
  - destruct (str_eqb c b); f_equal; lia.
  - destruct (str_eqb_spec c a) as [->|];
    [rewrite (proj2 (str_eqb_neq _ _) n)|destruct (str_eqb_spec c b) as [->|]];
    destruct (Z.gtb_spec (v a b) (v b a)); destruct (Z.eqb_spec (v a b) (v b a));
    destruct (Z.ltb_spec (v b a) (v a b)); destruct (Z.eqb_spec (v b a) (v a b)); simpl; f_equal; try lia.
Qed.

Lemma wlt_fold_add c ps w :
  fold_left (fun w ab => wlt_step (fst ab) (snd ab) c w) ps w =
  Wlt (wins w + zsum (map (fun ab => if str_eqb c (fst ab) then b2z (negb (str_eqb (fst ab) (snd ab)) && beats v (fst ab) (snd ab)) else 0) ps))
      (losses w + zsum (map (fun ab => if str_eqb c (snd ab) then b2z (negb (str_eqb (fst ab) (snd ab)) && beats v (fst ab) (snd ab)) else 0) ps))
      (ties w + (zsum (map (fun ab => if str_eqb c (fst ab) then b2z (negb (str_eqb (fst ab) (snd ab)) && ties_with v (fst ab) (snd ab)) else 0) ps)
       + zsum (map (fun ab => if str_eqb c (snd ab) then b2z (negb (str_eqb (fst ab) (snd ab)) && ties_with v (fst ab) (snd ab)) else 0) ps))).
Proof.
  revert w; induction ps as [|[a b] r IH]; intro w; simpl.
  - destruct w; simpl; f_equal; lia.
  - rewrite IH, wlt_step_add. simpl. f_equal; lia.
Qed.

Lemma zsum_pairs (f : str * str -> Z) xs ys :
  zsum (map f (pairs xs ys)) = zsum (map (fun a => zsum (map (fun b => f (a, b)) ys)) xs).
Proof.
  induction xs as [|x r IH]; simpl; [reflexivity|].
  rewrite map_app, zsum_app, map_map, IH. reflexivity.
Qed.

Lemma count_zsum {A} (p : A -> bool) l : count p l = zsum (map (fun x => b2z (p x)) l).
Proof.
  unfold count. induction l as [|x r IH]; simpl; [reflexivity|].
  destruct (p x); simpl length; unfold b2z at 1; lia.
Qed.

Lemma count_others (p : str -> bool) c l :
  count p (others c l) = zsum (map (fun b => b2z (negb (str_eqb c b) && p b)) l).
Proof.
  rewrite count_zsum. unfold others. rewrite zsum_filter. apply zsum_map_ext. intros x _.
  destruct (str_eqb c x); reflexivity.
Qed.

Lemma sum_first c (f : str -> str -> Z) :
  In c cs ->
  zsum (map (fun ab => if str_eqb c (fst ab) then f (fst ab) (snd ab) else 0) (pairs cs cs)) =
  zsum (map (f c) cs).
Proof.
  intro Hc. rewrite zsum_pairs. simpl.
  rewrite (zsum_map_ext _ (fun a => if str_eqb c a then zsum (map (f a) cs) else 0)).
  - rewrite (zsum_single c (fun a => zsum (map (f a) cs))); auto.
  - intros a _. destruct (str_eqb c a); [reflexivity|apply zsum_map_0; reflexivity].
Qed.

Lemma sum_second c (f : str -> str -> Z) :
  In c cs ->
  zsum (map (fun ab => if str_eqb c (snd ab) then f (fst ab) (snd ab) else 0) (pairs cs cs)) =
  zsum (map (fun a => f a c) cs).
Proof.
  intro Hc. rewrite zsum_pairs. simpl. apply zsum_map_ext. intros a _.
  apply (zsum_single c (fun b => f a b)); auto.
Qed.

(** The record the code computes for candidate [c]. *)
Definition wlt_of (c : str) : wlt :=
  Wlt (count (fun b => beats v c b) (others c cs))
      (count (fun b => beats v b c) (others c cs))
      (2 * count (fun b => ties_with v c b) (others c cs)).

Lemma wlt_final c : In c cs ->
  fold_left (fun w ab => wlt_step (fst ab) (snd ab) c w) (pairs cs cs) wlt0 = wlt_of c.
Proof.
  intro Hc. rewrite wlt_fold_add. unfold wlt_of, wlt0. cbn [wins losses ties].
  rewrite (sum_first c (fun a b => b2z (negb (str_eqb a b) && beats v a b))) by exact Hc.
  rewrite (sum_second c (fun a b => b2z (negb (str_eqb a b) && beats v a b))) by exact Hc.
  rewrite (sum_first c (fun a b => b2z (negb (str_eqb a b) && ties_with v a b))) by exact Hc.
  rewrite (sum_second c (fun a b => b2z (negb (str_eqb a b) && ties_with v a b))) by exact Hc.
  rewrite !count_others.
  assert (E1 : zsum (map (fun a => b2z (negb (str_eqb a c) && beats v a c)) cs)
             = zsum (map (fun b => b2z (negb (str_eqb c b) && beats v b c)) cs)).
  { apply zsum_map_ext. intros x _. rewrite str_eqb_sym. reflexivity. }
  assert (E2 : zsum (map (fun a => b2z (negb (str_eqb a c) && ties_with v a c)) cs)
             = zsum (map (fun b => b2z (negb (str_eqb c b) && ties_with v c b)) cs)).
  { apply zsum_map_ext. intros x _. rewrite str_eqb_sym. unfold ties_with. rewrite Z.eqb_sym. reflexivity. }
  rewrite E1, E2. f_equal; lia.
Qed.

Lemma wlt_init : fold_left (fun w a => dset a wlt0 w) cs [] = dmap cs (fun _ => wlt0).
Proof. apply (fold_dset_dmap (fun _ => wlt0) cs []). exact Hn. Qed.

Lemma winlosstie_exact cd :
  dkeys cd = cs ->
  winlosstie_dict_from_pairdict cd pd =
  Ok (sort_desc (fun kv => wins (snd kv)) (dmap cs wlt_of)).
Proof.
  intro Hk. unfold winlosstie_dict_from_pairdict. rewrite Hk, wlt_init.
  rewrite wlt_loop_ok. simpl. f_equal. f_equal. apply dmap_ext. intros c Hc. apply wlt_final; exact Hc.
Qed.

Lemma filter_len {A} (p : A -> bool) l : (length (filter p l) <= length l)%nat.
Proof. induction l as [|x r IH]; simpl; [lia|]. destruct (p x); simpl; lia. Qed.

Lemma count_le_length {A} (p : A -> bool) l : 0 <= count p l <= Z.of_nat (length l).
Proof. unfold count. pose proof (filter_len p l). lia. Qed.

Lemma others_nin c l : ~ In c l -> others c l = l.
Proof.
  unfold others. induction l as [|y r IH]; intro Hx; cbn [filter]; [reflexivity|].
  destruct (str_eqb_spec c y) as [->|]; cbn [negb]; [exfalso; apply Hx; left; reflexivity|].
  f_equal. apply IH. intro; apply Hx; right; assumption.
Qed.

Lemma others_len c l : NoDup l -> In c l -> S (length (others c l)) = length l.
Proof.
  induction l as [|x r IH]; intros Hl Hc; [destruct Hc|].
  inversion Hl as [|? ? Hx Hr]; subst. unfold others. cbn [filter].
  destruct (str_eqb_spec c x) as [->|n]; cbn [negb length].
  - f_equal. change (length (others x r) = length r). rewrite others_nin; auto.
  - f_equal. apply IH; auto. destruct Hc as [Hc|Hc]; [congruence|exact Hc].
Qed.

Lemma others_length c : In c cs -> Z.of_nat (length (others c cs)) = Z.of_nat (length cs) - 1.
Proof. intro Hc. pose proof (others_len c cs Hn Hc). lia. Qed.

Lemma beats_ties_partition c :
  In c cs ->
  count (fun b => beats v c b) (others c cs) + count (fun b => beats v b c) (others c cs)
  + count (fun b => ties_with v c b) (others c cs) = Z.of_nat (length cs) - 1.
Proof.
  intro Hc. rewrite <- (others_length c Hc). rewrite !count_zsum, <- !zsum_map_add.
  rewrite (zsum_map_ext _ (fun _ => 1)).
  - rewrite zsum_map_const. lia.
  - intros b _. unfold beats, ties_with, b2z.
    destruct (Z.ltb_spec (v b c) (v c b)), (Z.ltb_spec (v c b) (v b c)), (Z.eqb_spec (v b c) (v c b)); lia.
Qed.

End WLT.

(** ** Copeland *)

Lemma fold_max_ge l x : x <= fold_left Z.max l x /\ forall y, In y l -> y <= fold_left Z.max l x.
Proof.
  revert x; induction l as [|z r IH]; intro x; simpl; [split; [lia|tauto]|].
  destruct (IH (Z.max x z)) as [H1 H2]. split; [lia|]. intros y [->|Hy]; [lia|auto].
Qed.

Lemma fold_max_in l x : In (fold_left Z.max l x) (x :: l).
Proof.
  revert x; induction l as [|z r IH]; intro x; simpl; [auto|].
  destruct (IH (Z.max x z)) as [H|H]; [|auto].
  rewrite <- H. destruct (Z.max_spec x z) as [[_ ->]|[_ ->]]; auto.
Qed.

Lemma py_max_spec l m : py_max l = Ok m -> In m l /\ forall y, In y l -> y <= m.
Proof.
  destruct l as [|x r]; simpl; [discriminate|]. intro H; inversion H; subst. split.
  - apply fold_max_in.
  - destruct (fold_max_ge r x) as [H1 H2]. intros y [->|Hy]; auto.
Qed.

Lemma fold_min_le l x : fold_left Z.min l x <= x /\ forall y, In y l -> fold_left Z.min l x <= y.
Proof.
  revert x; induction l as [|z r IH]; intro x; simpl; [split; [lia|tauto]|].
  destruct (IH (Z.min x z)) as [H1 H2]. split; [lia|]. intros y [->|Hy]; [lia|auto].
Qed.

Lemma fold_min_in l x : In (fold_left Z.min l x) (x :: l).
Proof.
  revert x; induction l as [|z r IH]; intro x; simpl; [auto|].
  destruct (IH (Z.min x z)) as [H|H]; [|auto].
  rewrite <- H. destruct (Z.min_spec x z) as [[_ ->]|[_ ->]]; auto.
Qed.

Lemma py_min_spec l m : py_min l = Ok m -> In m l /\ forall y, In y l -> m <= y.
Proof.
  destruct l as [|x r]; simpl; [discriminate|]. intro H; inversion H; subst. split.
  - apply fold_min_in.
  - destruct (fold_min_le r x) as [H1 H2]. intros y [->|Hy]; auto.
Qed.

Lemma py_max_ok l : l <> [] -> exists m, py_max l = Ok m.
Proof. destruct l; [congruence|simpl; eauto]. Qed.
Lemma py_min_ok l : l <> [] -> exists m, py_min l = Ok m.
Proof. destruct l; [congruence|simpl; eauto]. Qed.

Lemma scores_perm cc :
  Permutation (calc_Copeland_scores cc) (map (fun kv => (fst kv, half_points (snd kv))) (cc_winlosstie cc)).
Proof. apply sort_desc_perm. Qed.

Lemma winners_spec cc ws :
  get_Copeland_winners cc = Ok ws ->
  ws <> [] /\
  forall c, In c ws <->
    exists w, In (c, w) (cc_winlosstie cc) /\
              forall c' w', In (c', w') (cc_winlosstie cc) -> half_points w' <= half_points w.
Proof.
  unfold get_Copeland_winners. intro H. apply bind_ok in H as [mx [Hm H]]. inversion H; subst; clear H.
  apply py_max_spec in Hm as [Hin Hub].
  assert (HS : forall c s, In (c, s) (calc_Copeland_scores cc) <-> exists w, In (c, w) (cc_winlosstie cc) /\ s = half_points w).
  { intros c s. split; intro H.
    - apply (Permutation_in _ (scores_perm cc)) in H. apply in_map_iff in H as [[k w] [E Hk]].
      inversion E; subst. exists w; auto.
    - destruct H as [w [Hw ->]]. apply (Permutation_in _ (Permutation_sym (scores_perm cc))).
      apply in_map_iff. exists (c, w); auto. }
  split.
  - apply in_map_iff in Hin as [[c s] [E Hc]]. simpl in E; subst s. intro Hnil.
    assert (Hf : In c (map fst (filter (fun ns => snd ns =? mx) (calc_Copeland_scores cc)))).
    { apply in_map_iff. exists (c, mx). split; [reflexivity|]. apply filter_In. split; [exact Hc|]. simpl; lia. }
    rewrite Hnil in Hf; destruct Hf.
  - intro c. rewrite in_map_iff. split.
    + intros [[c' s] [E Hf]]. simpl in E; subst c'. apply filter_In in Hf as [Hf Heq]. simpl in Heq.
      apply HS in Hf as [w [Hw ->]]. exists w. split; [exact Hw|]. intros c' w' Hw'.
      assert (Hle : half_points w' <= mx).
      { apply Hub. apply in_map_iff. exists (c', half_points w'). split; [reflexivity|]. apply HS. eauto. }
      lia.
    + intros [w [Hw Hmax]]. exists (c, half_points w). split; [reflexivity|]. apply filter_In. split.
      * apply HS; eauto.
      * simpl. apply in_map_iff in Hin as [[c' s] [E Hc']]. simpl in E; subst s.
        apply HS in Hc' as [w' [Hw' Es]].
        assert (half_points w <= mx).
        { apply Hub. apply in_map_iff. exists (c, half_points w). split; [reflexivity|]. apply HS; eauto. }
        specialize (Hmax _ _ Hw'). lia.
Qed.

Lemma winners_ok cc : cc_winlosstie cc <> [] -> exists ws, get_Copeland_winners cc = Ok ws.
Proof.
  intro H. unfold get_Copeland_winners.
  destruct (py_max_ok (map snd (calc_Copeland_scores cc))) as [mx E].
  - intro E. apply map_eq_nil in E. apply H.
    pose proof (Permutation_length (scores_perm cc)) as HL. rewrite E, map_length in HL.
    destruct (cc_winlosstie cc); [reflexivity|discriminate].
  - rewrite E. simpl. eauto.
Qed.
