(** * PropsDiagram: C56, C57 *)

From Coq Require Import Permutation Sorted.
From Verif Require Import PyBase PyFacts Jabmod PairwiseModel Spec PairwiseFacts PropsPairwise DiagramModel.
Local Open Scope Z_scope.
Local Open Scope res_scope.

(** The record shown for a candidate (the tie count is doubled, see C05). *)
Definition record (m : jabmod) (c : str) : wlt :=
  Wlt (count (fun b => beats (votes_over m) c b) (others c (cands m)))
      (count (fun b => beats (votes_over m) b c) (others c (cands m)))
      (2 * count (fun b => ties_with (votes_over m) c b) (others c (cands m))).

Lemma full_copecount_eq m : tallyable m ->
  full_copecount m = Ok (Copecount (matrix (cands m) (offdiag (votes_over m))) (sort_desc (fun kv => wins (snd kv)) (dmap (cands m) (record m)))).
Proof.
  intro H. unfold full_copecount. rewrite (C01_pairwise_exact m H). cbn [bind].
  change (fun a b : str => if str_eqb a b then None else Some (votes_over m a b)) with (offdiag (votes_over m)).
  destruct H as [Hn _]. rewrite (winlosstie_exact (cands m) Hn) by reflexivity. cbn [bind]. reflexivity.
Qed.

Lemma NoDup_app_intro {X} (l1 l2 : list X) : NoDup l1 -> NoDup l2 -> (forall x, In x l1 -> In x l2 -> False) -> NoDup (l1 ++ l2).
Proof.
  induction 1 as [|x l1 Hx H1 IH]; intros H2 Hd; cbn [app]; [exact H2|]. constructor.
  - intro Hi. apply in_app_or in Hi as [Hi|Hi]; [contradiction|]. apply (Hd x); [left; reflexivity|exact Hi].
  - apply IH; [exact H2|]. intros y Hy. apply Hd. right; exact Hy.
Qed.

Lemma NoDup_app_left {X} (l1 l2 : list X) : NoDup (l1 ++ l2) -> NoDup l1.
Proof. induction l1 as [|x r IH]; intro H; [constructor|]. cbn [app] in H. inversion H as [|? ? H1 H2]; subst. constructor; [intro Hi; apply H1, in_or_app; left; exact Hi|apply IH, H2]. Qed.

(** ** C56 *)
Lemma top_max x l : exists w, In (max_wins x l, w) (x :: l) /\ forall y, In y (x :: l) -> wins (snd y) <= wins w.
Proof.
  revert x. induction l as [|y r IH]; intro x; cbn [max_wins].
  - exists (snd x). split; [left; destruct x; reflexivity|]. intros y [->|[]]. lia.
  - destruct (Z.ltb_spec (wins (snd x)) (wins (snd y))) as [L|L]; [destruct (IH y) as (w&H1&H2)|destruct (IH x) as (w&H1&H2)].
    + exists w. split; [right; exact H1|]. intros z [<-|Hz]; [|apply H2, Hz]. specialize (H2 y (or_introl eq_refl)). lia.
    + exists w. split; [destruct H1 as [H1|H1]; [left; exact H1|right; right; exact H1]|]. intros z [<-|[<-|Hz]]; [apply H2; left; reflexivity| |apply H2; right; exact Hz].
      specialize (H2 x (or_introl eq_refl)). lia.
Qed.

Definition arrow (v : str -> str -> Z) (a b : str) : list (str * str * str) :=
  if str_eqb a b then [] else if v b a <=? v a b then [(a, b, edge_label a b (v a b) (v b a))] else [].

Lemma edge_for_eq cs v a b : In a cs -> In b cs -> edge_for (matrix cs (offdiag v)) a b (offdiag v a b) = Ok (arrow v a b).
Proof.
  intros Ha Hb. unfold edge_for. rewrite (mat_getE_matrix cs (offdiag v) b a Hb Ha). cbn [bind]. unfold arrow, offdiag. rewrite (str_eqb_sym b a).
  destruct (str_eqb a b); [reflexivity|]. destruct (v b a <=? v a b); reflexivity.
Qed.

Lemma diagram_eq m cc : tallyable m -> full_copecount m = Ok cc -> cands m <> [] -> exists top,
  (exists w, In (top, w) (cc_winlosstie cc) /\ forall y, In y (cc_winlosstie cc) -> wins (snd y) <= wins w) /\
  copecount_diagram cc = Ok (Digraph (map (fun cw => (fst cw, node_label top (fst cw) (snd cw))) (cc_winlosstie cc))
                                     (concat (map (fun a => concat (map (arrow (votes_over m) a) (cands m))) (cands m)))).
Proof.
  intros H E0 Hne. rewrite (full_copecount_eq m H) in E0. apply ok_inj in E0. subst cc. cbn [cc_winlosstie cc_winningvotes]. set (w := sort_desc _ _).
  destruct w as [|x r] eqn:Ew.
  { exfalso. assert (P : Permutation (sort_desc (fun kv : str * wlt => wins (snd kv)) (dmap (cands m) (record m))) (dmap (cands m) (record m))) by apply sort_desc_perm.
    fold w in P. rewrite Ew in P. apply Permutation_nil in P. destruct (cands m); [congruence|discriminate]. }
  exists (max_wins x r). split; [apply top_max|]. unfold copecount_diagram. cbn [cc_winlosstie cc_winningvotes top_candidate bind].
  rewrite (mapM_ok _ (fun row => concat (map (arrow (votes_over m) (fst row)) (cands m)))).
  - cbn [bind]. f_equal. f_equal. f_equal. rewrite matrix_dmap. unfold dmap. rewrite map_map. reflexivity.
  - intros [a row] Hin. rewrite matrix_dmap in Hin. apply in_map_iff in Hin as (a'&Ea&Ha). injection Ea as -> <-. cbn [fst snd].
    rewrite (mapM_ok _ (fun lt => arrow (votes_over m) a (fst lt))).
    + cbn [bind]. unfold dmap. rewrite map_map. reflexivity.
    + intros [b o] Hb. apply in_map_iff in Hb as (b'&Eb&Hb). injection Eb as -> <-. cbn [fst snd]. apply edge_for_eq; assumption.
Qed.

(** One node per candidate, labelled with name and record; the longer label goes to one candidate only, and none has more wins. *)
Theorem C56_nodes : forall m cc g, tallyable m -> full_copecount m = Ok cc -> copecount_diagram cc = Ok g ->
  Permutation (map fst (g_nodes g)) (cands m) /\
  exists top, In top (cands m) /\ (forall c, In c (cands m) -> wins (record m c) <= wins (record m top)) /\
    forall c lab, In (c, lab) (g_nodes g) ->
      let w := record m c in
      lab = c ++ [10%N] ++ z2s (wins w) ++ u "-" ++ z2s (losses w) ++ u "-" ++ z2s (ties w) ++
            (if str_eqb c top then [10%N] ++ u "(" ++ z2s (wins w) ++ u " wins, " ++ z2s (losses w) ++ u " losses, " ++ z2s (ties w) ++ u " ties)" else []).
Proof.
  intros m cc g H E0 Eg. assert (Hne : cands m <> []).
  { intro Hn. rewrite (full_copecount_eq m H) in E0. apply ok_inj in E0. subst cc. rewrite Hn in Eg. discriminate. }
  destruct (diagram_eq m cc H E0 Hne) as (top&(w&Hin&Hmax)&E). rewrite E in Eg. apply ok_inj in Eg. subst g. cbn [g_nodes].
  rewrite (full_copecount_eq m H) in E0. apply ok_inj in E0. subst cc. cbn [cc_winlosstie] in *.
  assert (P : Permutation (sort_desc (fun kv : str * wlt => wins (snd kv)) (dmap (cands m) (record m))) (dmap (cands m) (record m))) by apply sort_desc_perm.
  assert (Q : forall c w, In (c, w) (sort_desc (fun kv : str * wlt => wins (snd kv)) (dmap (cands m) (record m))) <-> In c (cands m) /\ w = record m c).
  { intros c w'. split.
    - intro Hc. apply (Permutation_in _ P) in Hc. apply in_map_iff in Hc as (c'&Ec&Hc). injection Ec as -> <-. auto.
    - intros (Hc&->). apply (Permutation_in _ (Permutation_sym P)). apply in_map_iff. exists c. auto. }
  split.
  - rewrite map_map. cbn [fst]. rewrite (Permutation_map fst P). change (Permutation (dkeys (dmap (cands m) (record m))) (cands m)). rewrite dkeys_dmap. reflexivity.
  - apply Q in Hin as (Ht&->). exists top. split; [exact Ht|]. split.
    + intros c Hc. apply (Hmax (c, record m c)). apply Q. auto.
    + intros c lab Hl. apply in_map_iff in Hl as ([c' w']&Ec&Hc). cbn [fst snd] in Ec. injection Ec as -> <-. apply Q in Hc as (Hc&->). cbv zeta. unfold node_label, nl_s, wlt_text. rewrite <- !app_assoc. reflexivity.
Qed.
Print Assumptions C56_nodes.

(** The arrows: one from a to b iff b's voters do not outnumber a's, labelled with both figures; no arrow twice. *)
Theorem C56_edges : forall m cc g, tallyable m -> full_copecount m = Ok cc -> copecount_diagram cc = Ok g ->
  (forall a b lab, In (a, b, lab) (g_edges g) <->
     In a (cands m) /\ In b (cands m) /\ a <> b /\ votes_over m b a <= votes_over m a b /\
     lab = [8592%N] ++ u " " ++ a ++ u ": " ++ z2s (votes_over m a b) ++ [10%N] ++ b ++ u ": " ++ z2s (votes_over m b a)) /\
  NoDup (map fst (g_edges g)).
Proof.
  intros m cc g H E0 Eg. assert (Hne : cands m <> []).
  { intro Hn. rewrite (full_copecount_eq m H) in E0. apply ok_inj in E0. subst cc. rewrite Hn in Eg. discriminate. }
  destruct (diagram_eq m cc H E0 Hne) as (top&_&E). rewrite E in Eg. apply ok_inj in Eg. subst g. cbn [g_edges]. clear E. split.
  - intros a b lab. rewrite in_concat. split.
    + intros (l&Hl&Hin). apply in_map_iff in Hl as (a'&<-&Ha). apply in_concat in Hin as (l&Hl&Hin). apply in_map_iff in Hl as (b'&<-&Hb). unfold arrow in Hin.
      destruct (str_eqb_spec a' b') as [|N]; [destruct Hin|]. destruct (Z.leb_spec (votes_over m b' a') (votes_over m a' b')) as [L|L]; [|destruct Hin].
      destruct Hin as [Ei|[]]. injection Ei as <- <- <-. auto 10.
    + intros (Ha&Hb&N&L&->). eexists. split; [apply in_map_iff; exists a; split; [reflexivity|exact Ha]|]. apply in_concat. eexists. split; [apply in_map_iff; exists b; split; [reflexivity|exact Hb]|].
      unfold arrow. rewrite (proj2 (str_eqb_neq _ _) N). apply Z.leb_le in L. rewrite L. left. reflexivity.
  - destruct H as (Hn&_). assert (G : forall bs, NoDup bs -> forall as_, NoDup as_ -> NoDup (map fst (concat (map (fun a => concat (map (arrow (votes_over m) a) bs)) as_)))); [|apply G; assumption].
    intros bs Hb. assert (R : forall a ab, In ab (map fst (concat (map (arrow (votes_over m) a) bs))) -> fst ab = a /\ In (snd ab) bs).
    { clear Hb. intro a. induction bs as [|b bs IH]; [intros ? []|]. intros ab. cbn [map concat]. rewrite map_app. intro Hi. apply in_app_or in Hi as [Hi|Hi].
      - unfold arrow in Hi. destruct (str_eqb a b); [destruct Hi|]. destruct (_ <=? _); [|destruct Hi]. destruct Hi as [<-|[]]. cbn. auto.
      - apply IH in Hi as (?&?). split; [assumption|right; assumption]. }
    assert (S : forall a, NoDup (map fst (concat (map (arrow (votes_over m) a) bs)))).
    { intro a. clear -Hb. assert (R : forall bs ab, In ab (map fst (concat (map (arrow (votes_over m) a) bs))) -> In (snd ab) bs).
      { clear. induction bs as [|b bs IH]; [intros ? []|]. intros ab. cbn [map concat]. rewrite map_app. intro Hi. apply in_app_or in Hi as [Hi|Hi]; [|right; apply IH, Hi].
        unfold arrow in Hi. destruct (str_eqb a b); [destruct Hi|]. destruct (_ <=? _); [|destruct Hi]. destruct Hi as [<-|[]]. left; reflexivity. }
      induction Hb as [|b bs Hni Hb IH]; cbn [map concat]; [constructor|]. unfold arrow at 1. destruct (str_eqb a b); [exact IH|]. destruct (_ <=? _); [|exact IH].
      cbn [app map fst]. constructor; [|exact IH]. intro Hi. apply R in Hi. contradiction. }
    intros as_ Ha. induction Ha as [|a as_ Hni Ha IH]; cbn [map concat]; [constructor|]. rewrite map_app. apply NoDup_app_intro; [apply S|exact IH|].
    intros ab H1 H2. apply R in H1 as (<-&_). apply Hni. clear -R H2. induction as_ as [|a as_ IH]; [destruct H2|]. cbn [map concat] in H2. rewrite map_app in H2. apply in_app_or in H2 as [H2|H2].
    + apply R in H2 as (<-&_). left; reflexivity.
    + right. apply IH, H2.
Qed.
Print Assumptions C56_edges.

(** So two candidates are joined by one arrow from the winner, or by two if they tie. *)
Theorem C56_arrows : forall m cc g a b, tallyable m -> full_copecount m = Ok cc -> copecount_diagram cc = Ok g ->
  In a (cands m) -> In b (cands m) -> a <> b ->
  let arrows := filter (fun e => (str_eqb (fst (fst e)) a && str_eqb (snd (fst e)) b) || (str_eqb (fst (fst e)) b && str_eqb (snd (fst e)) a)) (g_edges g) in
  (votes_over m b a < votes_over m a b -> map fst arrows = [(a, b)]) /\
  (votes_over m a b = votes_over m b a -> Permutation (map fst arrows) [(a, b); (b, a)]).
Proof.
  intros m cc g a b H E0 Eg Ha Hb N. destruct (C56_edges m cc g H E0 Eg) as (He&Hn). cbv zeta. set (p := fun e : str * str * str => _).
  assert (Nf : NoDup (map fst (filter p (g_edges g)))).
  { clear -Hn. induction (g_edges g) as [|e r IH]; [constructor|]. inversion Hn as [|? ? H1 H2]; subst. cbn [filter]. destruct (p e); [|apply IH, H2]. cbn [map]. constructor; [|apply IH, H2].
    intro Hi. apply H1. apply in_map_iff in Hi as (e'&Ee&Hi). apply filter_In in Hi as (Hi&_). rewrite <- Ee. apply in_map, Hi. }
  assert (I : forall x y, In (x, y) (map fst (filter p (g_edges g))) <-> (x = a /\ y = b \/ x = b /\ y = a) /\ votes_over m y x <= votes_over m x y).
  { intros x y. split.
    - intro Hi. apply in_map_iff in Hi as ([[x' y'] lab]&Ee&Hi). cbn [fst] in Ee. injection Ee as -> ->. apply filter_In in Hi as (Hi&Hp). apply He in Hi as (_&_&_&L&_).
      unfold p in Hp. cbn [fst snd] in Hp. apply Bool.orb_true_iff in Hp as [Hp|Hp]; apply andb_prop in Hp as (H1&H2); apply str_eqb_eq in H1; apply str_eqb_eq in H2; subst; auto.
    - intros (Hxy&L). apply in_map_iff. exists (x, y, [8592%N] ++ u " " ++ x ++ u ": " ++ z2s (votes_over m x y) ++ [10%N] ++ y ++ u ": " ++ z2s (votes_over m y x)). split; [reflexivity|]. apply filter_In. split.
      + apply He. destruct Hxy as [(->&->)|(->&->)]; repeat split; auto.
      + unfold p. cbn [fst snd]. destruct Hxy as [(->&->)|(->&->)]; rewrite !str_eqb_refl; [reflexivity|]. apply Bool.orb_true_r. }
  split.
  - intro L. assert (P : Permutation (map fst (filter p (g_edges g))) [(a, b)]).
    { apply NoDup_Permutation; [exact Nf|repeat constructor; intros []|]. intros [x y]. rewrite I. split.
      - intros ([(->&->)|(->&->)]&L2); [left; reflexivity|lia].
      - intros [Ex|[]]. injection Ex as <- <-. split; [auto|lia]. }
    apply Permutation_sym, Permutation_length_1_inv in P. exact P.
  - intro L. apply NoDup_Permutation; [exact Nf| |].
    + constructor; [|repeat constructor; intros []]. intros [Ex|[]]. injection Ex as Ex _. congruence.
    + intros [x y]. rewrite I. split.
      * intros ([(->&->)|(->&->)]&_); [left; reflexivity|right; left; reflexivity].
      * intros [Ex|[Ex|[]]]; injection Ex as <- <-; (split; [auto|lia]).
Qed.
Print Assumptions C56_arrows.

(** It fails exactly when there are no candidates. *)
Theorem C56_total : forall m cc, tallyable m -> full_copecount m = Ok cc ->
  (cands m <> [] -> exists g, copecount_diagram cc = Ok g) /\ (cands m = [] -> copecount_diagram cc = Err ValueError).
Proof.
  intros m cc H E0. split.
  - intro Hne. destruct (diagram_eq m cc H E0 Hne) as (top&_&E). eauto.
  - intro Hn. rewrite (full_copecount_eq m H) in E0. apply ok_inj in E0. subst cc. rewrite Hn. reflexivity.
Qed.
Print Assumptions C56_total.

Example C56_demo : exists cc g, full_copecount sample = Ok cc /\ copecount_diagram cc = Ok g /\ map fst (g_edges g) = [(B, A); (C, A); (C, B)] /\ map fst (g_nodes g) = [C; B; A].
Proof. eexists. eexists. split; [vm_compute; reflexivity|]. split; [vm_compute; reflexivity|]. split; reflexivity. Qed.
Example C56_tie_demo : exists cc g, full_copecount tie_election = Ok cc /\ copecount_diagram cc = Ok g /\ map fst (g_edges g) = [(A, B); (B, A)].
Proof. eexists. eexists. split; [vm_compute; reflexivity|]. split; [vm_compute; reflexivity|]. reflexivity. Qed.

(** ** C57 *)
(** The order of the rows: candidates by wins, the most first; candidates with the same number stay in the order of the model. *)
Definition row_order (m : jabmod) (order : list str) : Prop :=
  Permutation order (cands m) /\ StronglySorted (fun a b => wins (record m b) <= wins (record m a)) order /\
  forall n, filter (fun c => wins (record m c) =? n) order = filter (fun c => wins (record m c) =? n) (cands m).

Lemma row_order_sorted m : row_order m (sort_desc (fun c => wins (record m c)) (cands m)).
Proof. split; [apply sort_desc_perm|]. split; [apply (sort_desc_sorted (fun c => wins (record m c)))|]. intro n. apply (sort_desc_stable (fun c => wins (record m c))). Qed.

Lemma wl_get m c : NoDup (cands m) -> In c (cands m) -> dgetE c (sort_desc (fun kv : str * wlt => wins (snd kv)) (dmap (cands m) (record m))) = Ok (record m c).
Proof.
  intros Hn Hc. unfold dgetE. rewrite (dget_In_nodup c (record m c)); [reflexivity| |].
  - apply (Permutation_NoDup (l := cands m)); [|exact Hn]. unfold dkeys.
    rewrite (Permutation_map fst (sort_desc_perm (fun kv : str * wlt => wins (snd kv)) (dmap (cands m) (record m)))).
    change (Permutation (cands m) (dkeys (dmap (cands m) (record m)))). rewrite dkeys_dmap. reflexivity.
  - apply (Permutation_in _ (Permutation_sym (sort_desc_perm _ _))). apply in_map_iff. exists c. auto.
Qed.

Lemma by_wins_eq m : NoDup (cands m) ->
  by_wins (sort_desc (fun kv : str * wlt => wins (snd kv)) (dmap (cands m) (record m))) (cands m) = Ok (sort_desc (fun c => wins (record m c)) (cands m)).
Proof.
  intro Hn. unfold by_wins. rewrite (mapM_ok _ (fun x => (x, wins (record m x)))).
  - cbn [bind]. f_equal. unfold sort_desc. rewrite <- (sort_by_map (fun x => (x, wins (record m x))) (fun a b => wins (record m b) <=? wins (record m a))) by reflexivity.
    rewrite map_map. cbn [fst]. apply map_id.
  - intros x Hx. rewrite (wl_get m x Hn Hx). reflexivity.
Qed.

Lemma index_of_in x pre post : ~ In x pre -> index_of x (pre ++ x :: post) = Ok (length pre).
Proof.
  induction pre as [|y r IH]; intro H; cbn [app index_of length].
  - rewrite str_eqb_refl. reflexivity.
  - rewrite (proj2 (str_eqb_neq x y)) by (intros ->; apply H; left; reflexivity). rewrite IH by (intro Hi; apply H; right; exact Hi). reflexivity.
Qed.

Definition cell_of (v : str -> str -> Z) (ck rk : str) : cell := Cell rk (v rk ck) ck (v ck rk) (negb (v ck rk <? v rk ck)).

Lemma mapM_app {X Y} (f : X -> result Y) l1 l2 y1 y2 : mapM f l1 = Ok y1 -> mapM f l2 = Ok y2 -> mapM f (l1 ++ l2) = Ok (y1 ++ y2).
Proof.
  revert y1. induction l1 as [|x r IH]; intros y1 H1 H2.
  - apply ok_inj in H1. subst y1. exact H2.
  - cbn [mapM] in H1. apply bind_ok in H1 as (y&Hy&H1). apply bind_ok in H1 as (ys&Hys&H1). apply ok_inj in H1. subst y1. cbn [app mapM]. rewrite Hy. cbn [bind]. rewrite (IH _ Hys H2). reflexivity.
Qed.

Lemma cells_eq cs v pre ck post : NoDup (pre ++ ck :: post) -> (forall x, In x (pre ++ ck :: post) -> In x cs) ->
  bind (mapM (html_cell (matrix cs (offdiag v)) (pre ++ ck :: post) ck) (rev (pre ++ ck :: post))) (fun cells => Ok (concat cells)) = Ok (map (cell_of v ck) (rev pre)).
Proof.
  intros Hn Hin. rewrite rev_app_distr. cbn [rev]. rewrite <- app_assoc. cbn [app].
  assert (Hck : ~ In ck pre) by (intro Hi; apply NoDup_remove_2 in Hn; apply Hn; apply in_or_app; left; exact Hi).
  rewrite (mapM_app _ _ _ (map (fun _ => []) (rev post)) ([] :: map (fun rk => [cell_of v ck rk]) (rev pre))).
  - cbn [bind]. f_equal. rewrite concat_app. cbn [concat]. assert (Z0 : forall l : list str, concat (map (fun _ => @nil cell) l) = []) by (induction l; [reflexivity|assumption]). rewrite Z0. cbn [app].
    induction (rev pre) as [|x r IH]; [reflexivity|]. cbn [map concat app]. rewrite IH. reflexivity.
  - apply mapM_ok. intros rk Hrk. apply in_rev in Hrk. unfold html_cell. destruct (str_eqb_spec ck rk) as [|N]; [reflexivity|]. rewrite (index_of_in ck pre post Hck). cbn [bind].
    apply in_split in Hrk as (p1&p2&->). replace (pre ++ ck :: p1 ++ rk :: p2) with ((pre ++ ck :: p1) ++ rk :: p2) in * by (rewrite <- app_assoc; reflexivity).
    rewrite index_of_in by (intro Hi; apply NoDup_remove_2 in Hn; apply Hn; apply in_or_app; left; exact Hi). cbn [bind]. rewrite (proj2 (Nat.ltb_lt _ _)); [reflexivity|]. rewrite app_length. cbn [length]. lia.
  - cbn [mapM]. unfold html_cell at 1. rewrite str_eqb_refl. cbn [bind].
    rewrite (mapM_ok _ (fun rk => [cell_of v ck rk])); [reflexivity|]. intros rk Hrk. apply in_rev in Hrk. unfold html_cell. destruct (str_eqb_spec ck rk) as [E1|N]; [subst; contradiction|].
    rewrite (index_of_in ck pre post Hck). cbn [bind]. assert (Hr : In rk cs) by (apply Hin, in_or_app; left; exact Hrk). assert (Hc : In ck cs) by (apply Hin, in_or_app; right; left; reflexivity).
    apply in_split in Hrk as (p1&p2&->). rewrite <- app_assoc in *. cbn [app] in *.
    rewrite index_of_in by (intro Hi; apply NoDup_remove_2 in Hn; apply Hn; apply in_or_app; left; exact Hi). cbn [bind]. rewrite (proj2 (Nat.ltb_ge _ _)); [|rewrite app_length; cbn [length]; lia].
    rewrite !mat_getE_matrix by assumption. cbn [bind]. unfold offdiag. rewrite (proj2 (str_eqb_neq _ _) N), (proj2 (str_eqb_neq rk ck)) by congruence. reflexivity.
Qed.

(** The row of candidate ck, the candidates of [before] being above it and [n] being the number of candidates; the cells are unmarked iff rk wins. *)
Definition row_for (m : jabmod) (n : nat) (before : list str) (ck : str) (row : hrow) : Prop :=
  let w := record m ck in
  (exists name, dget ck (j_candidates m) = Some name /\ hr_label row = if str_eqb ck name then name else name ++ u " [" ++ [34%N] ++ ck ++ [34%N] ++ u "]") /\
  hr_wlt row = u "(" ++ z2s (wins w) ++ u "-" ++ z2s (losses w) ++ u "-" ++ z2s (ties w) ++ u ")" /\
  hr_caption row = (if 0 <? wins w then Some (ck ++ u " victories") else None) /\
  hr_losses row = (if 0 <? losses w then [8592%N] ++ u " " ++ ck ++ u " losses" else ck ++ u " is undefeated") /\
  map ce_rk (hr_cells row) = rev before /\
  (forall c, In c (hr_cells row) -> ce_ck c = ck /\ ce_rkscore c = votes_over m (ce_rk c) ck /\ ce_ckscore c = votes_over m ck (ce_rk c)) /\
  hr_colspan row + (if hr_caption row then 1 else 0) + Z.of_nat (length (hr_cells row)) = Z.of_nat n + 2.

Definition pre_marked (c : cell) : Prop := ce_dagger c = (ce_rkscore c <=? ce_ckscore c).

Lemma rows_ok m cs wl : tallyable m -> cs = cands m -> wl = sort_desc (fun kv : str * wlt => wins (snd kv)) (dmap cs (record m)) ->
  forall todo pre, NoDup (pre ++ todo) -> (forall x, In x (pre ++ todo) -> In x cs) ->
  exists rows, html_rows (j_candidates m) (matrix cs (offdiag (votes_over m))) wl (pre ++ todo) (Z.of_nat (length todo) + 1) todo = Ok rows /\ length rows = length todo /\
    (forall i ck row, nth_error todo i = Some ck -> nth_error rows i = Some row -> row_for m (length (pre ++ todo)) (pre ++ firstn i todo) ck row) /\
    (forall row c, In row rows -> In c (hr_cells row) -> pre_marked c).
Proof.
  intros H -> ->. induction todo as [|ck todo IH]; intros pre Hn Hin.
  { exists []. split; [reflexivity|]. split; [reflexivity|]. split; [intros [|i] ck row E; discriminate|]. intros row c []. }
  assert (Hc : In ck (cands m)) by (apply Hin, in_or_app; right; left; reflexivity).
  assert (Hname : exists name, dget ck (j_candidates m) = Some name).
  { destruct (dget ck (j_candidates m)) as [name|] eqn:E; [eauto|]. exfalso. apply dget_None in E. apply E. exact Hc. }
  destruct Hname as (name&Ename).
  assert (E : (pre ++ ck :: todo) = (pre ++ [ck]) ++ todo) by (rewrite <- app_assoc; reflexivity).
  destruct (IH (pre ++ [ck])) as (rows&Er&Hlen&Hrows&Hm); [rewrite <- E; exact Hn|rewrite <- E; exact Hin|].
  pose proof (cells_eq (cands m) (votes_over m) pre ck todo Hn Hin) as Ecells. apply bind_ok in Ecells as (cells&Ec&Ecc). apply ok_inj in Ecc.
  eexists. split; [|split; [|split]].
  - cbn [html_rows]. unfold html_row. unfold dgetE at 1. rewrite Ename. cbn [bind]. rewrite (wl_get m ck (proj1 H) Hc). cbn [bind]. rewrite Ec. cbn [bind].
    replace (Z.of_nat (length (ck :: todo)) + 1 - 1) with (Z.of_nat (length todo) + 1) by (cbn [length]; lia). rewrite E, Er. cbn [bind]. rewrite Ecc. reflexivity.
  - cbn [length]. rewrite Hlen. reflexivity.
  - intros [|i] ck' row E1 E2; cbn [nth_error] in E1, E2.
    + apply some_inj in E1, E2. subst ck' row. cbn [firstn]. rewrite app_nil_r. unfold row_for. cbn [hr_label hr_wlt hr_caption hr_losses hr_cells hr_colspan]. split; [|split; [|split; [|split; [|split; [|split]]]]].
      * exists name. split; [exact Ename|reflexivity].
      * unfold wlt_text. rewrite <- !app_assoc. reflexivity.
      * reflexivity.
      * reflexivity.
      * rewrite map_map. cbn [cell_of ce_rk]. apply map_id.
      * intros c Hcell. apply in_map_iff in Hcell as (rk&<-&Hrk). repeat split; reflexivity.
      * rewrite map_length, rev_length, app_length. cbn [length]. destruct (0 <? wins (record m ck)); cbn [length]; lia.
    + specialize (Hrows i ck' row E1 E2). cbn [firstn]. rewrite E. replace (pre ++ ck :: firstn i todo) with ((pre ++ [ck]) ++ firstn i todo) by (rewrite <- app_assoc; reflexivity). exact Hrows.
  - intros row c [<-|Hr] Hcell; [|apply (Hm row c Hr Hcell)]. cbn [hr_cells] in Hcell. apply in_map_iff in Hcell as (rk&<-&_). unfold pre_marked. cbn [cell_of ce_dagger ce_rkscore ce_ckscore]. destruct (Z.ltb_spec (votes_over m ck rk) (votes_over m rk ck)), (Z.leb_spec (votes_over m rk ck) (votes_over m ck rk)); cbn [negb]; try reflexivity; lia.
Qed.

(** *** The dagger below the table *)
Lemma unmark_none cs : snd (unmark_cells cs) = false -> fst (unmark_cells cs) = cs.
Proof.
  induction cs as [|c r IH]; [reflexivity|]. cbn [unmark_cells]. destruct (unmark_cells r) as (r'&gone). cbn [fst snd] in IH. destruct gone; [discriminate|]. rewrite IH by reflexivity.
  destruct (ce_dagger c); [discriminate|reflexivity].
Qed.
Lemma unmark_flag cs : snd (unmark_cells cs) = existsb ce_dagger cs.
Proof.
  induction cs as [|c r IH]; [reflexivity|]. cbn [unmark_cells existsb]. destruct (unmark_cells r) as (r'&gone). cbn [snd] in IH. rewrite <- IH. destruct gone; [rewrite Bool.orb_true_r; reflexivity|].
  destruct (ce_dagger c); reflexivity.
Qed.
Lemma unmark_erase cs : map unmarked (fst (unmark_cells cs)) = map unmarked cs.
Proof.
  induction cs as [|c r IH]; [reflexivity|]. cbn [unmark_cells]. destruct (unmark_cells r) as (r'&gone). cbn [fst] in IH. destruct gone; [cbn [fst map]; rewrite IH; reflexivity|].
  destruct (ce_dagger c); cbn [fst map]; rewrite IH; reflexivity.
Qed.
Lemma unmark_app a b : unmark_cells (a ++ b) = if snd (unmark_cells b) then (a ++ fst (unmark_cells b), true) else (fst (unmark_cells a) ++ b, snd (unmark_cells a)).
Proof.
  induction a as [|c r IH]; cbn [app].
  - destruct (unmark_cells b) as (b'&g) eqn:Eb. cbn [fst snd]. destruct g; [reflexivity|]. pose proof (unmark_none b) as U. rewrite Eb in U. rewrite <- (U eq_refl). reflexivity.
  - cbn [unmark_cells]. rewrite IH. destruct (snd (unmark_cells b)); [reflexivity|]. destruct (unmark_cells r) as (r'&g). cbn [fst snd]. destruct g; [reflexivity|]. destruct (ce_dagger c); reflexivity.
Qed.
Lemma unmark_exact cs before c after : fst (unmark_cells cs) = before ++ c :: after ->
  exists c0 after0, skipn (length before) cs = c0 :: after0 /\ unmarked c0 = unmarked c /\ map unmarked after0 = map unmarked after /\ ce_dagger c = ce_dagger c0 && existsb ce_dagger after0.
Proof.
  revert cs. induction before as [|d before IH]; intros cs H.
  - destruct cs as [|c0 r]; [discriminate|]. cbn [app length skipn] in *. exists c0, r. split; [reflexivity|]. cbn [unmark_cells] in H. rewrite <- unmark_flag. pose proof (unmark_erase r) as Er. pose proof (unmark_none r) as U.
    destruct (unmark_cells r) as (r'&gone). cbn [fst snd] in *. destruct gone.
    + injection H as -> ->. rewrite Bool.andb_true_r. auto.
    + rewrite (U eq_refl) in H. destruct (ce_dagger c0) eqn:Ed; cbn [fst] in H; injection H as <- <-; auto.
  - destruct cs as [|c0 r]; [discriminate|]. cbn [app length skipn] in *. apply IH. cbn [unmark_cells] in H. destruct (unmark_cells r) as (r'&gone). cbn [fst].
    destruct gone; [|destruct (ce_dagger c0)]; cbn [fst] in H; injection H as _ H; exact H.
Qed.
Lemma unmark_rows_flat rs : concat (map hr_cells (fst (unmark_rows rs))) = fst (unmark_cells (concat (map hr_cells rs))) /\ snd (unmark_rows rs) = snd (unmark_cells (concat (map hr_cells rs))).
Proof.
  induction rs as [|r rest IH]; [split; reflexivity|]. cbn [unmark_rows map concat]. rewrite unmark_app. destruct (unmark_rows rest) as (rest'&g). cbn [fst snd] in IH. destruct IH as (I1&I2). rewrite <- I2. destruct g.
  - cbn [fst snd map concat]. rewrite I1. split; reflexivity.
  - destruct (unmark_cells (hr_cells r)) as (cs&g') eqn:Ec. cbn [fst snd map concat with_cells hr_cells]. rewrite I1, unmark_none by (symmetry; exact I2). split; reflexivity.
Qed.
Definition same_row (r r' : hrow) : Prop := r' = with_cells r (hr_cells r') /\ map unmarked (hr_cells r') = map unmarked (hr_cells r).
Lemma unmark_rows_same rs : Forall2 same_row rs (fst (unmark_rows rs)).
Proof.
  assert (Refl : forall r, same_row r r) by (intros []; split; reflexivity).
  induction rs as [|r rest IH]; [constructor|]. cbn [unmark_rows]. destruct (unmark_rows rest) as (rest'&g). cbn [fst] in IH. destruct g; [cbn [fst]; constructor; [apply Refl|exact IH]|].
  destruct (unmark_cells (hr_cells r)) as (cs&g') eqn:Ec. cbn [fst]. constructor; [|exact IH]. split; [reflexivity|]. cbn [with_cells hr_cells]. pose proof (unmark_erase (hr_cells r)) as U. rewrite Ec in U. exact U.
Qed.
Lemma same_row_for m n pre ck r r' : same_row r r' -> row_for m n pre ck r -> row_for m n pre ck r'.
Proof.
  intros (E1&E2) (H1&H2&H3&H4&H5&H6&H7). rewrite E1. unfold row_for. cbn [with_cells hr_label hr_wlt hr_caption hr_losses hr_cells hr_colspan].
  assert (Ek : map ce_rk (hr_cells r') = map ce_rk (hr_cells r)).
  { transitivity (map ce_rk (map unmarked (hr_cells r'))); [rewrite map_map; reflexivity|]. rewrite E2, map_map. reflexivity. }
  split; [exact H1|]. split; [exact H2|]. split; [exact H3|]. split; [exact H4|]. split; [rewrite Ek; exact H5|]. split.
  - intros c Hc. assert (Hu : In (unmarked c) (map unmarked (hr_cells r))) by (rewrite <- E2; apply in_map, Hc). apply in_map_iff in Hu as (c0&Eu&H0). destruct (H6 c0 H0) as (A1&A2&A3).
    unfold unmarked in Eu. injection Eu as U1 U2 U3 U4. rewrite U1, U2, U3, U4 in *. auto.
  - assert (El : length (hr_cells r') = length (hr_cells r)) by (rewrite <- (map_length unmarked), E2; apply map_length). rewrite El. exact H7.
Qed.

Lemma html_table_ok m : tallyable m ->
  let order := sort_desc (fun c => wins (record m c)) (cands m) in
  exists rows, html_table m = Ok (unmark_rows rows) /\ length rows = length order /\
    (forall i ck row, nth_error order i = Some ck -> nth_error rows i = Some row -> row_for m (length order) (firstn i order) ck row) /\
    (forall row c, In row rows -> In c (hr_cells row) -> pre_marked c).
Proof.
  intros H order. assert (P : Permutation order (cands m)) by apply sort_desc_perm.
  destruct (rows_ok m (cands m) _ H eq_refl eq_refl order []) as (rows&Er&Hlen&Hrows&Hm); [apply (Permutation_NoDup (Permutation_sym P)), H|intros x Hx; apply (Permutation_in _ P), Hx|].
  exists rows. split; [|split; [exact Hlen|split; [exact Hrows|exact Hm]]].
  unfold html_table. rewrite (C01_pairwise_exact m H). cbn [bind]. change (fun a b : str => if str_eqb a b then None else Some (votes_over m a b)) with (offdiag (votes_over m)).
  rewrite (winlosstie_exact (cands m) (proj1 H)) by reflexivity. cbn [bind]. change (dmap (cands m) (wlt_of (cands m) (votes_over m))) with (dmap (cands m) (record m)).
  assert (Ek : dkeys (matrix (cands m) (offdiag (votes_over m))) = cands m) by (rewrite matrix_dmap; apply dkeys_dmap). rewrite Ek, (by_wins_eq m (proj1 H)). cbn [bind].
  fold order. cbn [app] in Er. rewrite Er. reflexivity.
Qed.

Lemma Forall2_nth {X Y} (R : X -> Y -> Prop) l1 l2 i y : Forall2 R l1 l2 -> nth_error l2 i = Some y -> exists x, nth_error l1 i = Some x /\ R x y.
Proof. intro H. revert i. induction H as [|a b l1 l2 Hab H IH]; intros [|i] E; try discriminate; [apply some_inj in E; subst y; exists a; auto|apply IH, E]. Qed.
Lemma Forall2_len {X Y} (R : X -> Y -> Prop) l1 l2 : Forall2 R l1 l2 -> length l1 = length l2.
Proof. induction 1; cbn; congruence. Qed.

(** The table has one row per candidate, by wins, the most first.  Row i shows the candidate's name, record and two captions, and
    one cell for each candidate above it (nearest first) with the votes each way; every row is n+4 columns wide. *)
Theorem C57_rows : forall m, tallyable m -> exists rows flag order, html_table m = Ok (rows, flag) /\ row_order m order /\ length rows = length order /\
  forall i ck row, nth_error order i = Some ck -> nth_error rows i = Some row ->
    let w := record m ck in
    (exists name, dget ck (j_candidates m) = Some name /\ hr_label row = if str_eqb ck name then name else name ++ u " [" ++ [34%N] ++ ck ++ [34%N] ++ u "]") /\
    hr_wlt row = u "(" ++ z2s (wins w) ++ u "-" ++ z2s (losses w) ++ u "-" ++ z2s (ties w) ++ u ")" /\
    hr_caption row = (if 0 <? wins w then Some (ck ++ u " victories") else None) /\
    hr_losses row = (if 0 <? losses w then [8592%N] ++ u " " ++ ck ++ u " losses" else ck ++ u " is undefeated") /\
    map ce_rk (hr_cells row) = rev (firstn i order) /\
    (forall c, In c (hr_cells row) -> ce_ck c = ck /\ ce_rkscore c = votes_over m (ce_rk c) ck /\ ce_ckscore c = votes_over m ck (ce_rk c)) /\
    1 + hr_colspan row + (if hr_caption row then 1 else 0) + Z.of_nat (length (hr_cells row)) + 1 = Z.of_nat (length (cands m)) + 4.
Proof.
  intros m H. destruct (html_table_ok m H) as (rows&E&Hlen&Hrows&_). set (order := sort_desc _ _) in *. exists (fst (unmark_rows rows)), (snd (unmark_rows rows)), order.
  split; [rewrite E, <- surjective_pairing; reflexivity|]. split; [apply row_order_sorted|]. pose proof (unmark_rows_same rows) as U. split; [rewrite <- (Forall2_len _ _ _ U); exact Hlen|].
  intros i ck row E1 E2. destruct (Forall2_nth _ _ _ _ _ U E2) as (r0&E3&Hs). pose proof (same_row_for m _ _ _ _ _ Hs (Hrows i ck r0 E1 E3)) as (H1&H2&H3&H4&H5&H6&H7).
  cbv zeta. repeat (split; [assumption|]). assert (L : length order = length (cands m)) by apply Permutation_length, sort_desc_perm. rewrite L in H7. lia.
Qed.
Print Assumptions C57_rows.

Lemma table_cells m rows flag : tallyable m -> html_table m = Ok (rows, flag) -> exists order, row_order m order /\ length rows = length order /\
  forall i ck row, nth_error order i = Some ck -> nth_error rows i = Some row ->
    map ce_rk (hr_cells row) = rev (firstn i order) /\
    (forall c, In c (hr_cells row) -> ce_ck c = ck /\ ce_rkscore c = votes_over m (ce_rk c) ck /\ ce_ckscore c = votes_over m ck (ce_rk c)).
Proof.
  intros H E. destruct (C57_rows m H) as (rows'&flag'&order&E'&Ho&Hl&Hr). rewrite E in E'. apply ok_inj in E'. injection E' as <- <-. exists order. split; [exact Ho|]. split; [exact Hl|].
  intros i ck row E1 E2. destruct (Hr i ck row E1 E2) as (_&_&_&_&H5&H6&_). auto.
Qed.

Definition pair_cell (a b : str) (c : cell) : bool := (str_eqb (ce_rk c) a && str_eqb (ce_ck c) b) || (str_eqb (ce_rk c) b && str_eqb (ce_ck c) a).
Lemma row_hits cells ck a b : NoDup (map ce_rk cells) -> (forall c, In c cells -> ce_ck c = ck) -> a <> b -> ~ In ck (map ce_rk cells) ->
  length (filter (pair_cell a b) cells) = if (str_eqb ck b && memb a (map ce_rk cells)) || (str_eqb ck a && memb b (map ce_rk cells)) then 1%nat else 0%nat.
Proof.
  intros Nd Hck Nab Hno. induction cells as [|c cells IH]; [cbn [map filter length memb]; rewrite !Bool.andb_false_r; reflexivity|].
  cbn [map] in Nd, Hno. inversion Nd as [|? ? Nd1 Nd2]; subst. cbn [filter map]. unfold pair_cell at 1. rewrite (Hck c (or_introl eq_refl)).
  assert (IH' := IH Nd2 (fun c Hc => Hck c (or_intror Hc)) (fun Hi => Hno (or_intror Hi))). clear IH.
  assert (M : forall x, memb x (ce_rk c :: map ce_rk cells) = str_eqb (ce_rk c) x || memb x (map ce_rk cells)).
  { intro x. apply Bool.eq_true_iff_eq. rewrite Bool.orb_true_iff, !memb_In, str_eqb_eq. cbn [In]. reflexivity. }
  rewrite !M.
  assert (M1 : forall x, ce_rk c = x -> memb x (map ce_rk cells) = false).
  { intros x <-. destruct (memb (ce_rk c) (map ce_rk cells)) eqn:Em; [|reflexivity]. apply memb_In in Em. contradiction. }
  destruct (str_eqb_spec (ce_rk c) a) as [Ea|Na], (str_eqb_spec (ce_rk c) b) as [Eb|Nb]; try congruence.
  - rewrite (M1 a Ea) in IH'. cbn [andb orb] in *. destruct (str_eqb_spec ck b) as [Ecb|Ncb].
    + cbn [andb orb length] in *. rewrite IH'. rewrite (proj2 (str_eqb_neq ck a)) by congruence. reflexivity.
    + cbn [andb orb length] in *. exact IH'.
  - rewrite (M1 b Eb) in IH'. cbn [andb orb] in *. destruct (str_eqb_spec ck a) as [Eca|Nca].
    + cbn [andb orb length] in *. rewrite Bool.orb_false_r in IH'. rewrite Bool.orb_true_r. cbn [length]. rewrite IH'. rewrite (proj2 (str_eqb_neq ck b)) by congruence. reflexivity.
    + cbn [andb orb length] in *. exact IH'.
  - cbn [andb orb length]. exact IH'.
Qed.
Fixpoint hits (a b : str) (pre l : list str) : nat :=
  match l with [] => O | ck :: r => ((if (str_eqb ck b && memb a pre) || (str_eqb ck a && memb b pre) then 1 else 0) + hits a b (pre ++ [ck]) r)%nat end.
Lemma hits_app a b l1 : forall pre l2, hits a b pre (l1 ++ l2) = (hits a b pre l1 + hits a b (pre ++ l1) l2)%nat.
Proof.
  induction l1 as [|x r IH]; intros pre l2; cbn [app hits]; [rewrite app_nil_r; reflexivity|]. rewrite IH, <- app_assoc. cbn [app]. lia.
Qed.
Lemma hits_none a b l : forall pre, ~ In a l -> ~ In b l -> hits a b pre l = O.
Proof.
  induction l as [|x r IH]; intros pre Ha Hb; [reflexivity|]. cbn [hits]. rewrite IH; [|intro; apply Ha; right; assumption|intro; apply Hb; right; assumption].
  rewrite (proj2 (str_eqb_neq x b)) by (intros ->; apply Hb; left; reflexivity). rewrite (proj2 (str_eqb_neq x a)) by (intros ->; apply Ha; left; reflexivity). reflexivity.
Qed.
Lemma hits_sym a b l : forall pre, hits a b pre l = hits b a pre l.
Proof. induction l as [|x r IH]; intro pre; [reflexivity|]. cbn [hits]. rewrite IH, Bool.orb_comm. reflexivity. Qed.
Lemma memb_false x l : ~ In x l -> memb x l = false.
Proof. intro H. destruct (memb x l) eqn:Em; [|reflexivity]. apply memb_In in Em. contradiction. Qed.
Lemma hits_one a b l : NoDup l -> In a l -> In b l -> a <> b -> hits a b [] l = 1%nat.
Proof.
  assert (G : forall a b o1 o2, NoDup (o1 ++ a :: o2) -> In b o2 -> a <> b -> hits a b [] (o1 ++ a :: o2) = 1%nat).
  { clear a b l. intros a b o1 o2 N Hb Nab. apply in_split in Hb as (o3&o4&->). rewrite !hits_app. cbn [hits app].
    assert (Na : ~ In a (o1 ++ o3 ++ b :: o4)) by (apply NoDup_remove_2 in N; exact N).
    assert (Nb : ~ In b (o1 ++ a :: o3 ++ o4)).
    { replace (o1 ++ a :: o3 ++ b :: o4) with ((o1 ++ a :: o3) ++ b :: o4) in N by (rewrite <- app_assoc; reflexivity). apply NoDup_remove_2 in N. rewrite <- app_assoc in N. exact N. }
    rewrite hits_app. cbn [hits]. rewrite !hits_none.
    - rewrite (proj2 (str_eqb_neq a b)) by exact Nab. rewrite str_eqb_refl. cbn [andb orb]. rewrite (memb_false b o1) by (intro; apply Nb, in_or_app; left; assumption).
      rewrite str_eqb_refl. cbn [andb]. rewrite (proj2 (memb_In a _)); [reflexivity|]. apply in_or_app. left. apply in_or_app. right. left; reflexivity.
    - intro Hi. apply Na. apply in_or_app. right. apply in_or_app. right. right. exact Hi.
    - intro Hi. apply Nb. apply in_or_app. right. right. apply in_or_app. right. exact Hi.
    - intro Hi. apply Na. apply in_or_app. right. apply in_or_app. left. exact Hi.
    - intro Hi. apply Nb. apply in_or_app. right. right. apply in_or_app. left. exact Hi.
    - intro Hi. apply Na. apply in_or_app. left. exact Hi.
    - intro Hi. apply Nb. apply in_or_app. left. exact Hi. }
  intros N Ha Hb Nab. apply in_split in Ha as (o1&o2&->). apply in_app_or in Hb as [Hb|[Hb|Hb]]; [|congruence|apply G; assumption].
  apply in_split in Hb as (o3&o4&->). rewrite hits_sym. rewrite <- app_assoc in *. cbn [app] in *. apply G; [exact N| |congruence]. apply in_or_app. right. left. reflexivity.
Qed.
Lemma table_hits a b : a <> b -> forall rows order pre, length rows = length order -> NoDup (pre ++ order) ->
  (forall i ck row, nth_error order i = Some ck -> nth_error rows i = Some row -> map ce_rk (hr_cells row) = rev (pre ++ firstn i order) /\ (forall c, In c (hr_cells row) -> ce_ck c = ck)) ->
  length (filter (pair_cell a b) (concat (map hr_cells rows))) = hits a b pre order.
Proof.
  intro Nab. induction rows as [|row rows IH]; intros [|ck order] pre Hl N Hr; try discriminate; [reflexivity|].
  destruct (Hr O ck row eq_refl eq_refl) as (H5&H6). cbn [firstn] in H5. rewrite app_nil_r in H5. cbn [map concat hits]. rewrite filter_app, app_length.
  assert (Nck : ~ In ck pre) by (intro Hi; apply NoDup_remove_2 in N; apply N, in_or_app; left; exact Hi).
  rewrite (row_hits (hr_cells row) ck a b); [|rewrite H5; apply NoDup_rev; exact (NoDup_app_left _ _ N)|exact H6|exact Nab|rewrite H5; intro Hi; apply Nck, in_rev; exact Hi].
  assert (Mm : forall x, memb x (map ce_rk (hr_cells row)) = memb x pre).
  { intro x. rewrite H5. apply Bool.eq_true_iff_eq. rewrite !memb_In. rewrite <- in_rev. reflexivity. }
  rewrite !Mm. f_equal. apply IH; [cbn [length] in Hl; lia|rewrite <- app_assoc; exact N|].
  intros i ck' row' E1 E2. rewrite <- app_assoc. apply (Hr (S i) ck' row' E1 E2).
Qed.

(** Every contest has exactly one cell, in the row of the candidate with fewer wins, and shows the votes each way. *)
Theorem C57_contests : forall m rows flag, tallyable m -> html_table m = Ok (rows, flag) ->
  let cells := concat (map hr_cells rows) in
  (forall c, In c cells -> In (ce_rk c) (cands m) /\ In (ce_ck c) (cands m) /\ ce_rk c <> ce_ck c /\
     ce_rkscore c = votes_over m (ce_rk c) (ce_ck c) /\ ce_ckscore c = votes_over m (ce_ck c) (ce_rk c) /\ wins (record m (ce_ck c)) <= wins (record m (ce_rk c))) /\
  (forall a b, In a (cands m) -> In b (cands m) -> a <> b ->
     length (filter (fun c => (str_eqb (ce_rk c) a && str_eqb (ce_ck c) b) || (str_eqb (ce_rk c) b && str_eqb (ce_ck c) a)) cells) = 1%nat).
Proof.
  intros m rows flag H E. destruct (table_cells m rows flag H E) as (order&(P&S&_)&Hl&Hr). cbv zeta.
  assert (N : NoDup order) by (apply (Permutation_NoDup (Permutation_sym P)), H).
  split.
  - intros c Hc. apply in_concat in Hc as (cs&Hcs&Hc). apply in_map_iff in Hcs as (row&<-&Hrow). destruct (In_nth_error _ _ Hrow) as (i&Ei).
    destruct (nth_error order i) as [ck|] eqn:Eo; [|apply nth_error_None in Eo; assert (i < length rows)%nat by (apply nth_error_Some; congruence); lia].
    destruct (Hr i ck row Eo Ei) as (H5&H6). destruct (H6 c Hc) as (E1&E2&E3). subst ck.
    assert (Hk : In (ce_rk c) (firstn i order)) by (apply in_rev; rewrite <- H5; apply in_map, Hc).
    apply nth_error_split in Eo as (o1&o2&Eo&El). assert (Ef : firstn i order = o1) by (rewrite Eo, <- El, firstn_app, Nat.sub_diag, firstn_all; cbn [firstn]; apply app_nil_r). rewrite Ef in Hk.
    split; [apply (Permutation_in _ P); rewrite Eo; apply in_or_app; left; exact Hk|]. split; [apply (Permutation_in _ P); rewrite Eo; apply in_or_app; right; left; reflexivity|].
    split; [|split; [exact E2|split; [exact E3|]]].
    + intro Eq. rewrite Eo in N. apply NoDup_remove_2 in N. apply N. apply in_or_app. left. rewrite <- Eq. exact Hk.
    + rewrite Eo in S. clear -S Hk. induction o1 as [|x o1 IH]; [destruct Hk|]. cbn [app] in S. inversion S as [|? ? S' F]; subst. destruct Hk as [->|Hk]; [|apply IH; assumption].
      rewrite Forall_forall in F. apply F. apply in_or_app. right; left; reflexivity.
  - intros a b Ha Hb Nab. apply (Permutation_in _ (Permutation_sym P)) in Ha, Hb. refine (eq_trans (table_hits a b Nab rows order [] Hl N _) (hits_one a b order N Ha Hb Nab)).
    intros i ck row E1 E2. destruct (Hr i ck row E1 E2) as (H5&H6). split; [exact H5|]. intros c Hc. apply H6, Hc.
Qed.
Print Assumptions C57_contests.

(** The remark is shown iff some contest is not won by the candidate placed higher. *)
Theorem C57_remark : forall m rows flag, tallyable m -> html_table m = Ok (rows, flag) ->
  (flag = true <-> exists c, In c (concat (map hr_cells rows)) /\ ce_rkscore c <= ce_ckscore c).
Proof.
  intros m rows flag H E. destruct (html_table_ok m H) as (rows0&E0&_&_&Hm). rewrite E in E0. apply ok_inj in E0. destruct (unmark_rows_flat rows0) as (F1&F2). rewrite <- E0 in F1, F2. cbn [fst snd] in F1, F2.
  rewrite F1, F2, unmark_flag, existsb_exists.
  assert (T : forall x, (exists c, In c x /\ ce_rkscore c <= ce_ckscore c) <-> exists c, In c (map unmarked x) /\ ce_rkscore c <= ce_ckscore c).
  { intro x. split; [intros (c&Hc&L); exists (unmarked c); split; [apply in_map, Hc|exact L]|]. intros (c&Hc&L). apply in_map_iff in Hc as (c0&<-&Hc). exists c0. auto. }
  rewrite (T (fst _)), unmark_erase, <- T. assert (Q : forall c, In c (concat (map hr_cells rows0)) -> pre_marked c).
  { intros c Hc. apply in_concat in Hc as (cs&Hcs&Hc). apply in_map_iff in Hcs as (row&<-&Hrow). apply (Hm row c Hrow Hc). }
  split; intros (c&Hc&L); exists c; (split; [exact Hc|]); pose proof (Q c Hc) as Qc; unfold pre_marked in Qc; [rewrite Qc in L; apply Z.leb_le, L|rewrite Qc; apply Z.leb_le, L].
Qed.
Print Assumptions C57_remark.

(** The exact rule for the dagger: a cell that the higher candidate does not win is marked, except the last such cell of the table. *)
Theorem C57_daggers : forall m rows flag before c after, tallyable m -> html_table m = Ok (rows, flag) -> concat (map hr_cells rows) = before ++ c :: after ->
  (ce_dagger c = true <-> ce_rkscore c <= ce_ckscore c /\ exists d, In d after /\ ce_rkscore d <= ce_ckscore d).
Proof.
  intros m rows flag before c after H E Es. destruct (html_table_ok m H) as (rows0&E0&_&_&Hm). rewrite E in E0. apply ok_inj in E0. destruct (unmark_rows_flat rows0) as (F1&_). rewrite <- E0 in F1. cbn [fst snd] in F1.
  rewrite Es in F1. symmetry in F1. destruct (unmark_exact _ _ _ _ F1) as (c0&after0&S&U&Ua&D).
  assert (Q : forall c, In c (concat (map hr_cells rows0)) -> pre_marked c).
  { intros d Hc. apply in_concat in Hc as (cs&Hcs&Hc). apply in_map_iff in Hcs as (row&<-&Hrow). apply (Hm row d Hrow Hc). }
  assert (Qs : forall d, In d (c0 :: after0) -> pre_marked d).
  { intros d Hd. apply Q. rewrite <- (firstn_skipn (length before)). apply in_or_app. right. rewrite S. exact Hd. }
  assert (Ec : ce_rkscore c0 = ce_rkscore c /\ ce_ckscore c0 = ce_ckscore c) by (unfold unmarked in U; injection U as _ U1 _ U2; auto). destruct Ec as (Ec1&Ec2).
  rewrite D, Bool.andb_true_iff, (Qs c0 (or_introl eq_refl)), Z.leb_le, Ec1, Ec2, existsb_exists.
  assert (T : forall x, (exists d, In d x /\ ce_rkscore d <= ce_ckscore d) <-> exists d, In d (map unmarked x) /\ ce_rkscore d <= ce_ckscore d).
  { intro x. split; [intros (d&Hc&L); exists (unmarked d); split; [apply in_map, Hc|exact L]|]. intros (d&Hc&L). apply in_map_iff in Hc as (d0&<-&Hc). exists d0. auto. }
  rewrite (T after), <- Ua, <- T. split; (intros (L&d&Hd&Ld); split; [exact L|]; exists d; split; [exact Hd|]); pose proof (Qs d (or_intror Hd)) as Qd; unfold pre_marked in Qd; [rewrite Qd in Ld; apply Z.leb_le, Ld|rewrite Qd; apply Z.leb_le, Ld].
Qed.
Print Assumptions C57_daggers.

Example C57_demo : exists rows, html_table sample = Ok (rows, false) /\ map (fun c => (ce_rk c, ce_rkscore c, ce_ck c, ce_ckscore c)) (concat (map hr_cells rows)) = [(C, 29, B, 27); (B, 51, A, 27); (C, 54, A, 27)].
Proof. eexists. split; vm_compute; reflexivity. Qed.

(** So the claim that a contest is marked iff the higher candidate does not win it is false: with one tie, no cell is marked. *)
Theorem C57_dagger_refuted : tallyable tie_election /\ exists rows c, html_table tie_election = Ok (rows, true) /\ In c (concat (map hr_cells rows)) /\
  ce_rkscore c = ce_ckscore c /\ ce_dagger c = false.
Proof.
  split; [split; [nodup|intros l Hl; simpl in Hl; intuition (subst; reflexivity)]|].
  eexists. eexists. split; [vm_compute; reflexivity|]. split; [left; reflexivity|]. split; reflexivity.
Qed.
Print Assumptions C57_dagger_refuted.

(** The text table: the candidates in the same order along both sides, the record in the row label, the pairwise votes inside, None on the diagonal. *)
Theorem C57_texttable : forall m, tallyable m -> exists order, row_order m order /\
  texttable_rows m = Ok (order, map (fun a => (a ++ u " (" ++ z2s (wins (record m a)) ++ u "-" ++ z2s (losses (record m a)) ++ u "-" ++ z2s (ties (record m a)) ++ u ")",
                                               map (fun b => if str_eqb a b then None else Some (votes_over m a b)) order)) order).
Proof.
  intros m H. exists (sort_desc (fun c => wins (record m c)) (cands m)). split; [apply row_order_sorted|]. unfold texttable_rows. rewrite (C01_pairwise_exact m H). cbn [bind].
  change (fun a b : str => if str_eqb a b then None else Some (votes_over m a b)) with (offdiag (votes_over m)).
  rewrite (winlosstie_exact (cands m) (proj1 H)) by reflexivity. cbn [bind]. change (dmap (cands m) (wlt_of (cands m) (votes_over m))) with (dmap (cands m) (record m)).
  assert (Ek : dkeys (matrix (cands m) (offdiag (votes_over m))) = cands m) by (rewrite matrix_dmap; apply dkeys_dmap). rewrite Ek, (by_wins_eq m (proj1 H)). cbn [bind].
  set (order := sort_desc _ _). assert (I : forall x, In x order -> In x (cands m)) by (intros x Hx; apply (Permutation_in _ (sort_desc_perm _ _) Hx)).
  rewrite (mapM_ok _ (fun a => (a ++ u " (" ++ z2s (wins (record m a)) ++ u "-" ++ z2s (losses (record m a)) ++ u "-" ++ z2s (ties (record m a)) ++ u ")",
                                               map (fun b => if str_eqb a b then None else Some (votes_over m a b)) order))); [reflexivity|].
  intros a Ha. unfold dgetE at 1. rewrite matrix_dmap, dget_dmap, (proj2 (memb_In _ _) (I a Ha)). cbn [bind]. rewrite <- matrix_dmap.
  rewrite (mapM_ok _ (offdiag (votes_over m) a)) by (intros x Hx; apply mat_getE_matrix; auto). cbn [bind]. rewrite (wl_get m a (proj1 H) (I a Ha)). cbn [bind]. unfold wlt_text. rewrite <- !app_assoc. reflexivity.
Qed.
Print Assumptions C57_texttable.
(** textgrid_for_2D_dict applied to the pairwise matrix: header and rows in the order of the model. *)
Theorem C57_textgrid : forall m pm, tallyable m -> pairwise_count_dict m = Ok pm ->
  textgrid_rows pm = (cands m, map (fun a => (a, map (fun b => if str_eqb a b then None else Some (votes_over m a b)) (cands m))) (cands m)).
Proof.
  intros m pm H E. rewrite (C01_pairwise_exact m H) in E. apply ok_inj in E. subst pm. unfold textgrid_rows. rewrite matrix_dmap, dkeys_dmap. f_equal. unfold dmap. rewrite map_map. apply map_ext. intro a. cbn [fst snd]. rewrite map_map. reflexivity.
Qed.
Print Assumptions C57_textgrid.
Example C57_texttable_demo : texttable_rows sample = Ok ([C; B; A], [(u "C (2-0-0)", [None; Some 29; Some 54]); (u "B (1-1-0)", [Some 27; None; Some 51]); (u "A (0-2-0)", [Some 27; Some 27; None])]).
Proof. vm_compute. reflexivity. Qed.
