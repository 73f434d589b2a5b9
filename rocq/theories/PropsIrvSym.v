(** * Property C80: instant runoff treats all candidates alike, depends on proportions only, and does
    not depend on the order in which candidates are declared (abiflib/irvtally.py). *)

From Verif Require Import PyBase PyFacts Jabmod PairwiseModel Spec PairwiseFacts IrvModel IrvFacts IrvStrict IrvTrace
  IrvCriteria PropsPairwise PropsCopeMore PropsIrv.
Local Open Scope Z_scope.

(** The same outcome, seen through [g]: an error stays the same error. *)
Definition rmap {X Y} (g : X -> Y) (r : result X) : result Y :=
  match r with Ok x => Ok (g x) | Err e => Err e end.

Lemma bind_rmap {X Y X' Y'} (g : X -> X') (h : Y -> Y') (r : result X) (r' : result X') (k : X -> result Y) (k' : X' -> result Y') :
  r' = rmap g r -> (forall x, r = Ok x -> k' (g x) = rmap h (k x)) -> bind r' k' = rmap h (bind r k).
Proof. intros -> H. destruct r as [x|e]; cbn [rmap bind]; [apply H|]; reflexivity. Qed.

Lemma mapM_rmap {X Y X' Y'} (g : X -> X') (h : Y -> Y') (k : X -> result Y) (k' : X' -> result Y') l :
  (forall x, k' (g x) = rmap h (k x)) -> mapM k' (map g l) = rmap (map h) (mapM k l).
Proof.
  intro H. induction l as [|x r IH]; cbn [map mapM]; [reflexivity|].
  eapply bind_rmap; [apply H|]. intros y _. eapply bind_rmap; [exact IH|]. reflexivity.
Qed.

Lemma foldM_rmap {S X S' X'} (g : X -> X') (h : S -> S') (k : S -> X -> result S) (k' : S' -> X' -> result S') l :
  (forall s x, k' (h s) (g x) = rmap h (k s x)) -> forall s, foldM k' (map g l) (h s) = rmap h (foldM k l s).
Proof.
  intro H. induction l as [|x r IH]; intro s; cbn [map foldM]; [reflexivity|].
  eapply bind_rmap; [apply H|]. intros y _. apply IH.
Qed.

Lemma sort_by_map {X Y} (g : X -> Y) (le : X -> X -> bool) (le' : Y -> Y -> bool) l :
  (forall a b, le' (g a) (g b) = le a b) -> sort_by le' (map g l) = map g (sort_by le l).
Proof.
  intro H. unfold sort_by. induction l as [|x r IH]; cbn [map fold_right]; [reflexivity|]. rewrite IH.
  generalize (fold_right (insert_by le) [] r). clear IH. intro s. induction s as [|y s IH]; cbn [map insert_by]; [reflexivity|].
  rewrite H. destruct (le x y); [reflexivity|]. cbn [map]. rewrite IH. reflexivity.
Qed.

(** ** Neutrality *)

(** The counts of a round and the report about it, with the candidates renamed. *)
Definition rename_dict {V} (f : str -> str) (d : dict V) : dict V := map (fun kv => (f (fst kv), snd kv)) d.
Definition rename_meta (f : str -> str) (rm : irvmeta) : irvmeta :=
  IrvMeta (im_roundnum rm) (im_startingqty rm) (im_exhaustedqty rm) (im_overvoteqty rm) (im_ballotcount rm)
    (im_countedqty rm) (im_bottom_votes_percand rm) (im_leading_votes_percand rm) (im_penultimate_votes_percand rm)
    (map f (im_starting_cands rm)) (im_top_voteqty rm) (im_bottom_voteqty rm)
    (option_map (map f) (im_bottomtie rm)) (im_batch_elim rm) (im_random_elim rm)
    (map f (im_eliminated rm)) (map f (im_all_eliminated rm)) (option_map (map f) (im_winner rm)).

Section NeutralIrv.
Context (f : str -> str) (Hf : forall x y, f x = f y -> x = y) (Hnil : forall x, f x = [] <-> x = []).

Lemma ranked_rename p : ranked_list (rename_dict f p) = rmap (map (fun kv => (f (fst kv), snd kv))) (ranked_list p).
Proof.
  unfold ranked_list. eapply (bind_rmap (map (fun kv : str * Z => (f (fst kv), snd kv)))).
  - unfold rename_dict. apply (mapM_rmap (fun kv : str * pref => (f (fst kv), snd kv)) (fun kv : str * Z => (f (fst kv), snd kv))). intros [k v]. cbn [fst snd]. destruct (p_rank v); reflexivity.
  - intros l _. cbn [rmap]. f_equal. unfold sort_asc. apply sort_by_map. reflexivity.
Qed.

Lemma map_snd_rename (l : list (str * Z)) : map snd (map (fun kv => (f (fst kv), snd kv)) l) = map snd l.
Proof. rewrite map_map. apply map_ext. reflexivity. Qed.

Lemma tier_rename rl x : tier_end (map (fun kv => (f (fst kv), snd kv)) rl) x = tier_end rl x.
Proof. unfold tier_end. rewrite map_snd_rename, map_length. reflexivity. Qed.

Lemma overvoted_rename l : top_overvoted (rename_line f l) = top_overvoted l.
Proof.
  unfold top_overvoted. change (v_prefs (rename_line f l)) with (rename_dict f (v_prefs l)). rewrite ranked_rename.
  destruct (ranked_list (v_prefs l)) as [rl|e]; cbn [rmap bind]; [|reflexivity].
  destruct rl as [|[t x] r]; cbn [map fst snd]; [reflexivity|].
  change ((f t, x) :: map (fun kv => (f (fst kv), snd kv)) r) with (map (fun kv : str * Z => (f (fst kv), snd kv)) ((t, x) :: r)).
  rewrite tier_rename. reflexivity.
Qed.

Lemma discard_rename : forall n ls, (length ls <= n)%nat ->
  discard_overvotes (map (rename_line f) ls) = rmap (fun ok => (fst ok, map (rename_line f) (snd ok))) (discard_overvotes ls).
Proof.
  induction n as [|n IH]; intros [|l r] H; cbn [length] in H; try lia; try reflexivity. cbn [map discard_overvotes].
  rewrite overvoted_rename. destruct (top_overvoted l) as [[|]|e]; cbn [bind rmap]; [| |reflexivity].
  - destruct r as [|l2 r2]; cbn [map]; [reflexivity|]. cbn [length] in H.
    eapply bind_rmap; [apply IH; lia|]. intros [o k] _. reflexivity.
  - eapply bind_rmap; [apply IH; lia|]. intros [o k] _. reflexivity.
Qed.

Lemma topcand_rename fuel : forall p, topcand fuel (rename_dict f p) = rmap (option_map f) (topcand fuel p).
Proof.
  induction fuel as [|n IH]; intro p; cbn [topcand]; rewrite ranked_rename;
    (destruct (ranked_list p) as [rl|e]; cbn [rmap bind]; [|reflexivity]);
    destruct rl as [|[t x] r]; cbn [map fst snd]; try reflexivity;
    change ((f t, x) :: map (fun kv => (f (fst kv), snd kv)) r) with (map (fun kv : str * Z => (f (fst kv), snd kv)) ((t, x) :: r));
    rewrite tier_rename; (destruct (Nat.eqb _ 0); [reflexivity|]); [reflexivity|].
  rewrite skipn_map. rewrite <- IH. f_equal. rewrite map_map. cbn [fst].
  generalize (skipn (S (tier_end ((t, x) :: r) x)) ((t, x) :: r)). intro s.
  induction s as [|[k z] s IHs]; cbn [map flat_map fst]; [reflexivity|].
  unfold rename_dict in *. rewrite IHs, (dget_rename f Hf), map_app. destruct (dget k p); reflexivity.
Qed.

Lemma dset_rename {V} k (v : V) d : dset (f k) v (rename_dict f d) = rename_dict f (dset k v d).
Proof.
  unfold rename_dict. induction d as [|[k' v'] r IH]; cbn [map dset fst snd]; [reflexivity|].
  rewrite (f_eqb f Hf). destruct (str_eqb k k'); cbn [map fst snd]; [reflexivity|]. rewrite IH. reflexivity.
Qed.

Lemma ddel_rename {V} k (d : dict V) : ddel (f k) (rename_dict f d) = rename_dict f (ddel k d).
Proof.
  unfold rename_dict. induction d as [|[k' v'] r IH]; cbn [map ddel fst snd]; [reflexivity|].
  rewrite (f_eqb f Hf). destruct (str_eqb k k'); cbn [map fst snd]; [|rewrite IH]; reflexivity.
Qed.

Lemma dmem_rename {V} k (d : dict V) : dmem (f k) (rename_dict f d) = dmem k d.
Proof. unfold dmem, rename_dict. rewrite (dget_rename f Hf). reflexivity. Qed.

Definition rename_state (st : dict Z * Z * Z) : dict Z * Z * Z := (rename_dict f (fst (fst st)), snd (fst st), snd st).

Lemma count_rename st l : count_step (rename_state st) (rename_line f l) = rmap rename_state (count_step st l).
Proof.
  destruct st as [[rc bc] ex]. unfold count_step, rename_state. cbn [fst snd].
  change (v_prefs (rename_line f l)) with (rename_dict f (v_prefs l)).
  assert (El : length (rename_dict f (v_prefs l)) = length (v_prefs l)) by apply map_length. rewrite El. eapply bind_rmap; [apply topcand_rename|].
  change (v_qty (rename_line f l)) with (v_qty l).
  intros [c|] _; cbn [option_map]; [|reflexivity].
  destruct c as [|a c].
  - rewrite (proj2 (Hnil []) eq_refl). reflexivity.
  - destruct (f (a :: c)) as [|a' c'] eqn:E; [apply (proj1 (Hnil _)) in E; discriminate|]. rewrite <- E. unfold dmodE, rename_dict.
    rewrite (dget_rename f Hf). destruct (dget (a :: c) rc) as [v|]; cbn [bind rmap fst snd]; [|reflexivity].
    f_equal. f_equal. f_equal. apply dset_rename.
Qed.

Definition rename_round (ri : roundinfo) : roundinfo :=
  RoundInfo (rename_dict f (ri_roundcount ri)) (map (rename_line f) (ri_pruned ri)) (ri_overvotes ri) (ri_ballotcount ri)
    (ri_exhausted ri) (ri_total ri) (ri_min ri) (ri_max ri) (ri_penult ri).

Lemma dvals_rename {V} (d : dict V) : dvals (rename_dict f d) = dvals d.
Proof. unfold dvals, rename_dict. rewrite map_map. reflexivity. Qed.

Lemma zero_rename cs : forall d, fold_left (fun d c => dset c 0 d) (map f cs) (rename_dict f d)
  = rename_dict f (fold_left (fun d c => dset c 0 d) cs d).
Proof. induction cs as [|c r IH]; intro d; cbn [map fold_left]; [reflexivity|]. rewrite dset_rename. apply IH. Qed.

Lemma round_rename cs ls : irv_round (map f cs) (map (rename_line f) ls) = rmap rename_round (irv_round cs ls).
Proof.
  unfold irv_round. change (@nil (str * Z)) with (rename_dict f (@nil (str * Z))) at 1. rewrite zero_rename.
  eapply bind_rmap; [apply (discard_rename (length ls)); lia|]. intros [ov pr] _. cbn [fst snd].
  eapply bind_rmap.
  - exact (foldM_rmap (rename_line f) rename_state count_step count_step pr count_rename
             (fold_left (fun d c => dset c 0 d) cs [], 0, 0)).
  - intros [[rc bc] ex] _. unfold rename_state. cbn [fst snd]. rewrite dvals_rename.
    destruct (py_min (dvals rc)) as [mn|e]; cbn [bind rmap]; [|reflexivity].
    destruct (py_max (dvals rc)) as [mx|e]; cbn [bind rmap]; [|reflexivity].
    destruct (if mn =? mx then Ok mx else py_min (filter (fun v => v >? mn) (dvals rc))) as [pen|e]; reflexivity.
Qed.

Lemma filter_rename {V} (p : V -> bool) (d : dict V) :
  map fst (filter (fun cv => p (snd cv)) (rename_dict f d)) = map f (map fst (filter (fun cv => p (snd cv)) d)).
Proof.
  unfold rename_dict. induction d as [|[k v] r IH]; cbn [map filter fst snd]; [reflexivity|].
  destruct (p v); cbn [map fst]; rewrite IH; reflexivity.
Qed.

Lemma bottom_rename ri : bottom_cands (rename_round ri) = map f (bottom_cands ri).
Proof. unfold bottom_cands, rename_round. cbn [ri_roundcount ri_min]. apply (filter_rename (fun v => v <=? ri_min ri)). Qed.
Lemma max_rename ri : max_cands (rename_round ri) = map f (max_cands ri).
Proof. unfold max_cands, rename_round. cbn [ri_roundcount ri_max]. apply (filter_rename (fun v => v =? ri_max ri)). Qed.

Definition rename_dec (ed : elimdec) : elimdec :=
  ElimDec (option_map (map f) (ed_bottomtie ed)) (ed_batch ed) (ed_random ed) (map f (ed_eliminated ed))
    (option_map (map f) (ed_loserlist ed)).

Lemma f_nil : f [] = [].
Proof. apply Hnil. reflexivity. Qed.

Lemma decision_rename o o' n ri : o_choice o' n = o_choice o n ->
  elim_decision o' n (rename_round ri) = rename_dec (elim_decision o n ri).
Proof.
  intro Ho. unfold elim_decision. rewrite bottom_rename, map_length, Ho.
  destruct (1 <? length (bottom_cands ri))%nat; [|reflexivity].
  assert (E : zsum (map (fun c => match dget c (ri_roundcount (rename_round ri)) with Some v => v | None => 0 end) (map f (bottom_cands ri)))
            = zsum (map (fun c => match dget c (ri_roundcount ri) with Some v => v | None => 0 end) (bottom_cands ri))).
  { rewrite map_map. f_equal. apply map_ext. intro c. unfold rename_round, rename_dict. cbn [ri_roundcount]. rewrite (dget_rename f Hf). reflexivity. }
  rewrite E. change (ri_penult (rename_round ri)) with (ri_penult ri).
  destruct (_ <=? _); [reflexivity|]. unfold rename_dec. cbn.
  rewrite <- f_nil at 1 2. rewrite !map_nth. reflexivity.
Qed.

Lemma memb_rename c s : memb (f c) (map f s) = memb c s.
Proof. induction s as [|x r IH]; cbn [map memb]; [reflexivity|]. rewrite (f_eqb f Hf), IH. reflexivity. Qed.
Lemma add_rename s c : set_add (map f s) (f c) = map f (set_add s c).
Proof. unfold set_add. rewrite memb_rename. destruct (memb c s); [|rewrite map_app]; reflexivity. Qed.
Lemma update_rename cs : forall s, set_update (map f s) (map f cs) = map f (set_update s cs).
Proof. unfold set_update. induction cs as [|c r IH]; intro s; cbn [map fold_left]; [reflexivity|]. rewrite add_rename. apply IH. Qed.
Lemma minus_rename a b : set_minus (map f a) (map f b) = map f (set_minus a b).
Proof.
  unfold set_minus. induction a as [|x r IH]; cbn [map filter]; [reflexivity|]. rewrite memb_rename, IH.
  destruct (memb x b); reflexivity.
Qed.

Lemma all_elim_rename pa ed : all_elim (option_map (map f) pa) (rename_dec ed) = map f (all_elim pa ed).
Proof.
  unfold all_elim, rename_dec. cbn [ed_eliminated ed_loserlist].
  destruct pa as [p|], (ed_loserlist ed) as [l|]; cbn [option_map]; change (@nil str) with (map f []);
    rewrite ?update_rename; reflexivity.
Qed.

Lemma eliminate_rename cs : forall ls, eliminate_cands (map f cs) (map (rename_line f) ls) = map (rename_line f) (eliminate_cands cs ls).
Proof.
  unfold eliminate_cands. induction cs as [|c r IH]; intro ls; cbn [map fold_left]; [reflexivity|]. rewrite <- IH. f_equal.
  rewrite !map_map. apply map_ext. intro l. change (v_prefs (rename_line f l)) with (rename_dict f (v_prefs l)).
  rewrite dmem_rename. destruct (dmem c (v_prefs l)); [|reflexivity]. rewrite ddel_rename. reflexivity.
Qed.

Definition rename_outcome (r : list str * list (dict Z) * list irvmeta) : list str * list (dict Z) * list irvmeta :=
  (map f (fst (fst r)), map (rename_dict f) (snd (fst r)), map (rename_meta f) (snd r)).

Lemma irv_count_rename o o' : (forall n, o_choice o' n = o_choice o n) ->
  (forall n l, o_order o' n (map f l) = map f (o_order o n l)) ->
  forall fuel n pa cs ls,
  irv_count fuel o' n (option_map (map f) pa) (map f cs) (map (rename_line f) ls) = rmap rename_outcome (irv_count fuel o n pa cs ls).
Proof.
  intros Hc Ho. induction fuel as [|k IH]; intros n pa cs ls; cbn [irv_count]; [reflexivity|].
  eapply bind_rmap; [apply round_rename|]. intros ri _. cbv zeta.
  rewrite (decision_rename o o' n ri (Hc n)), all_elim_rename, max_rename, !minus_rename.
  assert (Eq : zsum (map v_qty (map (rename_line f) ls)) = zsum (map v_qty ls)) by (rewrite map_map; reflexivity).
  rewrite Eq. unfold rename_round. cbn [ri_roundcount ri_pruned ri_overvotes ri_ballotcount ri_exhausted ri_total ri_min ri_max ri_penult].
  destruct (ri_min ri =? ri_max ri); [reflexivity|]. destruct (2 * ri_max ri >? ri_total ri); [reflexivity|].
  unfold rename_dec. cbn [ed_bottomtie ed_batch ed_random ed_eliminated ed_loserlist].
  rewrite minus_rename, Ho, eliminate_rename.
  change (Some (map f (all_elim pa (elim_decision o n ri)))) with (option_map (map f) (Some (all_elim pa (elim_decision o n ri)))).
  eapply bind_rmap; [apply IH|]. intros [[w rs] ms] _. reflexivity.
Qed.
End NeutralIrv.

Lemma mapM_dget {V} (d : dict V) ks : (exists l, mapM (fun w => dgetE w d) ks = Ok l /\ forall k, In k ks -> dmem k d = true) \/
  (mapM (fun w => dgetE w d) ks = Err KeyError /\ exists k, In k ks /\ dmem k d = false).
Proof.
  induction ks as [|k r IH]; cbn [mapM]; [left; exists []; split; [reflexivity|intros k []]|].
  destruct (dget k d) as [v|] eqn:Ek.
  - assert (Em : dmem k d = true) by (unfold dmem; rewrite Ek; reflexivity).
    unfold dgetE at 1 3. rewrite Ek. cbn [of_option bind].
    destruct IH as [(l&E1&E2)|(E1&k'&E2&E3)]; rewrite E1; cbn [bind].
    + left. exists (v :: l). split; [reflexivity|]. intros k' [<-|H]; [exact Em|apply E2; exact H].
    + right. split; [reflexivity|]. exists k'. split; [right; exact E2|exact E3].
  - right. unfold dgetE at 1. rewrite Ek. split; [reflexivity|]. exists k. split; [left; reflexivity|]. unfold dmem. rewrite Ek. reflexivity.
Qed.

Lemma existsb_map {X Y} (g : X -> Y) (p : Y -> bool) l : existsb p (map g l) = existsb (fun x => p (g x)) l.
Proof. induction l as [|x r IH]; cbn [map existsb]; [|rewrite IH]; reflexivity. Qed.

(** Renaming the tokens of all candidates, with no two becoming the same, renames the winners, the
    counts of every round and the report about every round, and changes nothing else; what Python leaves
    to chance being the same up to the names.  An empty token stays empty: the count takes the empty
    token for "nobody". *)
Theorem C80_neutral : forall f o o' m,
  (forall x y, f x = f y -> x = y) -> (forall x, f x = [] <-> x = []) ->
  (forall n, o_choice o' n = o_choice o n) -> (forall n l, o_order o' n (map f l) = map f (o_order o n l)) ->
  match IRV_dict_from_jabmod o m, IRV_dict_from_jabmod o' (rename_tokens f m) with
  | Ok d, Ok d' =>
      ir_winner d' = map f (ir_winner d) /\
      ir_rounds d' = map (rename_dict f) (ir_rounds d) /\
      ir_roundmeta d' = map (rename_meta f) (ir_roundmeta d) /\
      ir_has_tie d' = ir_has_tie d /\ ir_canddict d' = rename_dict f (ir_canddict d) /\
      (length (ir_winner d) = 1%nat -> ir_winnerstr d' = ir_winnerstr d)
  | Err e, Err e' => e' = e
  | _, _ => False
  end.
Proof.
  intros f o o' m Hf Hnil Hc Ho. unfold IRV_dict_from_jabmod.
  assert (Ek : dkeys (j_candidates (rename_tokens f m)) = map f (dkeys (j_candidates m))) by (apply (cands_rename f m)).
  rewrite Ek, (map_length f). change (j_votelines (rename_tokens f m)) with (map (rename_line f) (j_votelines m)).
  pose proof (irv_count_rename f Hf Hnil o o' Hc Ho (S (length (dkeys (j_candidates m)))) 1 None (dkeys (j_candidates m)) (j_votelines m)) as R.
  match type of R with _ = ?rhs => match goal with |- context [irv_count ?a o' ?b ?c ?d ?e] =>
    assert (R' : irv_count a o' b c d e = rhs) by exact R end end. rewrite R'. clear R R'.
  destruct (irv_count _ o _ _ _ _) as [[[w rs] ms]|e]; cbn [rmap bind]; [|reflexivity].
  unfold rename_outcome. cbn [fst snd]. rewrite map_length.
  change (j_candidates (rename_tokens f m)) with (rename_dict f (j_candidates m)).
  assert (Et : existsb (fun rm => match im_bottomtie rm with Some _ => true | None => false end) (map (rename_meta f) ms)
             = existsb (fun rm => match im_bottomtie rm with Some _ => true | None => false end) ms).
  { rewrite existsb_map. induction ms as [|rm ms IH]; cbn [existsb]; [reflexivity|]. rewrite IH.
    destruct rm as [? ? ? ? ? ? ? ? ? ? ? ? [bt|] ? ? ? ? ?]; reflexivity. }
  destruct (Nat.ltb_spec 1 (length w)) as [L|L].
  - assert (P : Permutation (sort_str (map f w)) (map f (sort_str w))).
    { etransitivity; [apply sort_by_perm|]. apply Permutation_map, Permutation_sym, sort_by_perm. }
    destruct (mapM_dget (j_candidates m) (sort_str w)) as [(l&E1&E2)|(E1&k&E2&E3)];
      destruct (mapM_dget (rename_dict f (j_candidates m)) (sort_str (map f w))) as [(l'&E1'&E2')|(E1'&k'&E2'&E3')];
      rewrite E1; (match type of E1' with _ = ?rhs => match goal with |- context [mapM ?g (sort_str ?x)] =>
        assert (Q : mapM g (sort_str x) = rhs) by exact E1'; rewrite Q; clear Q end end); cbn [bind].
    + split; [reflexivity|]. split; [reflexivity|]. split; [reflexivity|]. split; [exact Et|]. split; [reflexivity|].
      cbn [ir_winner]. lia.
    + apply (Permutation_in _ P), in_map_iff in E2' as [k [<- Hk]]. rewrite (dmem_rename f Hf), (E2 k Hk) in E3'. discriminate.
    + assert (Hk : In (f k) (sort_str (map f w))) by (apply (Permutation_in _ (Permutation_sym P)), in_map; exact E2).
      apply E2' in Hk. rewrite (dmem_rename f Hf), E3 in Hk. discriminate.
    + reflexivity.
  - destruct w as [|x w]; cbn [map nth_error of_option bind]; [reflexivity|].
    assert (Ex : dget (f x) (rename_dict f (j_candidates m)) = dget x (j_candidates m)) by apply (dget_rename f Hf).
    unfold dgetE. rewrite Ex. destruct (dget x (j_candidates m)) as [nm|]; cbn [of_option bind]; [|reflexivity].
    split; [reflexivity|]. split; [reflexivity|]. split; [reflexivity|]. split; [exact Et|]. split; [reflexivity|]. reflexivity.
Qed.
Print Assumptions C80_neutral.

Lemma rename_election f m : (forall x y, f x = f y -> x = y) -> irv_election m -> irv_election (rename_tokens f m).
Proof.
  intros Hf (H1&H2&H3). split; [rewrite cands_rename; apply NoDup_map_inj; assumption|].
  split; [rewrite cands_rename; destruct (cands m); [congruence|discriminate]|].
  intros l Hl. unfold rename_tokens in Hl. cbn [j_votelines] in Hl. apply in_map_iff in Hl as [l0 [<- Hl]].
  destruct (H3 l0 Hl) as [[Q1 Q2] Q3]. unfold rename_line, with_prefs, line_ok. cbn [v_prefs]. rewrite cands_rename.
  assert (Ek : map fst (map (fun kv => (f (fst kv), snd kv)) (v_prefs l0)) = map f (map fst (v_prefs l0))) by (rewrite !map_map; reflexivity).
  split; [split|].
  - rewrite Ek. apply NoDup_map_inj; assumption.
  - intros x Hx. rewrite Ek in Hx. apply in_map_iff in Hx as [y [<- Hy]]. apply in_map, Q2. exact Hy.
  - intros c p Hp. apply in_map_iff in Hp as [[c0 p0] [E0 Hp]]. cbn [fst snd] in E0. injection E0 as <- <-. exact (Q3 c0 p0 Hp).
Qed.

(** Whatever order sets are enumerated in, on either side: if the count drew no lots, the winners and the
    counts of the renamed election are the renamed ones. *)
Theorem C80_neutral_any_schedule : forall f o o' m d d',
  (forall x y, f x = f y -> x = y) -> (forall x, f x = [] <-> x = []) -> schedule o -> schedule o' -> irv_election m ->
  IRV_dict_from_jabmod o m = Ok d -> IRV_dict_from_jabmod o' (rename_tokens f m) = Ok d' ->
  (forall i rc rm, round d i rc rm -> ~ final d i -> im_random_elim rm = false) ->
  Permutation (map f (ir_winner d)) (ir_winner d') /\
  length (ir_rounds d') = length (ir_rounds d) /\
  forall i rc rm rc' rm', round d i rc rm -> round d' i rc' rm' ->
    Permutation (rename_dict f rc) rc' /\ im_exhaustedqty rm' = im_exhaustedqty rm /\ im_overvoteqty rm' = im_overvoteqty rm.
Proof.
  intros f o o' m d d' Hf Hnil Ho Ho' Hm E0 E0' Hr.
  set (oi := Oracle (fun _ => 0%nat) (fun _ l => l)).
  assert (Hoi : schedule oi) by (intros n l; apply Permutation_refl).
  destruct (irv_run oi m Hoi Hm) as (di&Ei&Ti&_).
  pose proof (rename_election f m Hf Hm) as Hm'.
  destruct (irv_run oi _ Hoi Hm') as (di'&Ei'&Ti'&_).
  pose proof (C80_neutral f oi oi m Hf Hnil (fun _ => eq_refl) (fun _ _ => eq_refl)) as N. rewrite Ei, Ei' in N.
  destruct N as (N1&N2&N3&_).
  destruct (C23_irv_chance_only_where_reported o oi m d di Ho Hoi Hm E0 Ei Hr) as (P1&P2&P3).
  destruct (irv_run o m Ho Hm) as (dd&Ed&Td&_). rewrite E0 in Ed. apply ok_inj in Ed. subst dd.
  destruct (trace_lengths _ _ _ _ _ _ _ _ Td) as [L1 _]. destruct (trace_lengths _ _ _ _ _ _ _ _ Ti) as [L2 _].
  assert (Hr' : forall i rc rm, round di' i rc rm -> ~ final di' i -> im_random_elim rm = false).
  { intros i rc' rm' [R1 R2] Hnf. rewrite N2 in R1. rewrite N3 in R2.
    rewrite nth_error_map in R1, R2.
    destruct (nth_error (ir_rounds di) i) as [rci|] eqn:Q1; [|discriminate]. destruct (nth_error (ir_roundmeta di) i) as [rmi|] eqn:Q2; [|discriminate].
    cbn [option_map] in R2. apply some_inj in R2. subst rm'. cbn [rename_meta im_random_elim].
    assert (HL : (i < length (ir_rounds d))%nat) by (rewrite P2; apply (nth_lt _ _ _ Q1)).
    destruct (nth_error (ir_rounds d) i) as [rc|] eqn:Q3; [|apply nth_error_None in Q3; lia].
    destruct (nth_error (ir_roundmeta d) i) as [rm|] eqn:Q4; [|apply nth_error_None in Q4; lia].
    destruct (P3 i rc rm rci rmi (conj Q3 Q4) (conj Q1 Q2)) as (_&_&_&_&_&Q5&_). rewrite <- Q5.
    apply (Hr i rc rm (conj Q3 Q4)). unfold final in *. rewrite N2, map_length in Hnf. congruence. }
  destruct (C23_irv_chance_only_where_reported oi o' _ di' d' Hoi Ho' Hm' Ei' E0' Hr') as (S1&S2&S3).
  split; [etransitivity; [apply Permutation_map, P1|rewrite <- N1; exact S1]|].
  split; [rewrite <- S2, N2, map_length; congruence|].
  intros i rc rm rc' rm' R R'.
  assert (HL : (i < length (ir_rounds di))%nat) by (rewrite <- P2; apply (nth_lt _ _ _ (proj1 R))).
  destruct (nth_error (ir_rounds di) i) as [rci|] eqn:Q1; [|apply nth_error_None in Q1; lia].
  destruct (nth_error (ir_roundmeta di) i) as [rmi|] eqn:Q2; [|apply nth_error_None in Q2; lia].
  destruct (P3 i rc rm rci rmi R (conj Q1 Q2)) as (A1&_&A2&A3&_).
  assert (Ri : round di' i (rename_dict f rci) (rename_meta f rmi)).
  { split; [rewrite N2, nth_error_map, Q1; reflexivity|rewrite N3, nth_error_map, Q2; reflexivity]. }
  destruct (S3 i _ _ rc' rm' Ri R') as (B1&_&B2&B3&_). cbn [rename_meta im_exhaustedqty im_overvoteqty] in B2, B3.
  split; [etransitivity; [apply Permutation_map, A1|exact B1]|]. split; congruence.
Qed.
Print Assumptions C80_neutral_any_schedule.

(** ** Homogeneity *)
Definition scale_dict (k : Z) (d : dict Z) : dict Z := map (fun cv => (fst cv, k * snd cv)) d.
Definition scale_meta (k : Z) (rm : irvmeta) : irvmeta :=
  IrvMeta (im_roundnum rm) (k * im_startingqty rm) (k * im_exhaustedqty rm) (k * im_overvoteqty rm) (k * im_ballotcount rm)
    (k * im_countedqty rm) (k * im_bottom_votes_percand rm) (k * im_leading_votes_percand rm) (k * im_penultimate_votes_percand rm)
    (im_starting_cands rm) (k * im_top_voteqty rm) (k * im_bottom_voteqty rm)
    (im_bottomtie rm) (im_batch_elim rm) (im_random_elim rm)
    (im_eliminated rm) (im_all_eliminated rm) (im_winner rm).

Section Homogeneous.
Context (k : Z) (Hk : 0 < k).
Definition scale_line (l : voteline) : voteline := with_qty l (k * v_qty l).

Lemma discard_scale : forall n ls, (length ls <= n)%nat ->
  discard_overvotes (map scale_line ls) = rmap (fun ok => (k * fst ok, map scale_line (snd ok))) (discard_overvotes ls).
Proof.
  induction n as [|n IH]; intros [|l r] H; cbn [length] in H; try lia;
    try (cbn [map discard_overvotes rmap fst snd]; rewrite Z.mul_0_r; reflexivity). cbn [map discard_overvotes].
  change (top_overvoted (scale_line l)) with (top_overvoted l). destruct (top_overvoted l) as [[|]|e]; cbn [bind rmap]; [| |reflexivity].
  - destruct r as [|l2 r2]; cbn [map]; [reflexivity|]. cbn [length] in H.
    eapply bind_rmap; [apply IH; lia|]. intros [o q] _. cbn [rmap fst snd map]. rewrite Z.mul_add_distr_l. reflexivity.
  - eapply bind_rmap; [apply IH; lia|]. intros [o q] _. reflexivity.
Qed.

Lemma dget_scale c d : dget c (scale_dict k d) = option_map (Z.mul k) (dget c d).
Proof. unfold scale_dict. induction d as [|[c' v] r IH]; cbn [map dget fst snd]; [reflexivity|]. destruct (str_eqb c c'); [reflexivity|exact IH]. Qed.

Lemma dset_scale c v d : dset c (k * v) (scale_dict k d) = scale_dict k (dset c v d).
Proof.
  unfold scale_dict. induction d as [|[c' v'] r IH]; cbn [map dset fst snd]; [reflexivity|].
  destruct (str_eqb c c'); cbn [map fst snd]; [reflexivity|]. rewrite IH. reflexivity.
Qed.

Definition scale_state (st : dict Z * Z * Z) : dict Z * Z * Z := (scale_dict k (fst (fst st)), k * snd (fst st), k * snd st).

Lemma count_scale st l : count_step (scale_state st) (scale_line l) = rmap scale_state (count_step st l).
Proof.
  destruct st as [[rc bc] ex]. unfold count_step, scale_state. cbn [fst snd].
  change (v_prefs (scale_line l)) with (v_prefs l). change (v_qty (scale_line l)) with (k * v_qty l).
  destruct (topcand (length (v_prefs l)) (v_prefs l)) as [[[|a c]|]|e]; cbn [bind rmap fst snd];
    rewrite ?Z.mul_add_distr_l; try reflexivity.
  unfold dmodE. rewrite dget_scale. destruct (dget (a :: c) rc) as [v|]; cbn [option_map bind rmap fst snd]; [|reflexivity].
  rewrite <- Z.mul_add_distr_l, dset_scale, Z.mul_add_distr_l. reflexivity.
Qed.

Lemma dvals_scale d : dvals (scale_dict k d) = map (Z.mul k) (dvals d).
Proof. unfold dvals, scale_dict. rewrite !map_map. reflexivity. Qed.

Lemma zsum_scale l : zsum (map (Z.mul k) l) = k * zsum l.
Proof. induction l as [|x r IH]; cbn [map zsum]; [lia|]. rewrite IH. lia. Qed.

Lemma min_scale l : py_min (map (Z.mul k) l) = rmap (Z.mul k) (py_min l).
Proof.
  destruct l as [|x r]; cbn [map py_min rmap]; [reflexivity|]. f_equal. revert x.
  induction r as [|y r IH]; intro x; cbn [map fold_left]; [reflexivity|]. rewrite <- IH, Z.mul_min_distr_nonneg_l by lia. reflexivity.
Qed.
Lemma max_scale l : py_max (map (Z.mul k) l) = rmap (Z.mul k) (py_max l).
Proof.
  destruct l as [|x r]; cbn [map py_max rmap]; [reflexivity|]. f_equal. revert x.
  induction r as [|y r IH]; intro x; cbn [map fold_left]; [reflexivity|]. rewrite <- IH, Z.mul_max_distr_nonneg_l by lia. reflexivity.
Qed.
Lemma filter_scale v l : filter (fun x => x >? k * v) (map (Z.mul k) l) = map (Z.mul k) (filter (fun x => x >? v) l).
Proof.
  induction l as [|x r IH]; cbn [map filter]; [reflexivity|]. rewrite IH.
  destruct (Z.gtb_spec (k * x) (k * v)), (Z.gtb_spec x v); try reflexivity; nia.
Qed.
Lemma eqb_scale a b : (k * a =? k * b) = (a =? b).
Proof. destruct (Z.eqb_spec (k * a) (k * b)), (Z.eqb_spec a b); try reflexivity; nia. Qed.
Lemma leb_scale a b : (k * a <=? k * b) = (a <=? b).
Proof. destruct (Z.leb_spec (k * a) (k * b)), (Z.leb_spec a b); try reflexivity; nia. Qed.

Definition scale_round (ri : roundinfo) : roundinfo :=
  RoundInfo (scale_dict k (ri_roundcount ri)) (map scale_line (ri_pruned ri)) (k * ri_overvotes ri) (k * ri_ballotcount ri)
    (k * ri_exhausted ri) (k * ri_total ri) (k * ri_min ri) (k * ri_max ri) (k * ri_penult ri).

Lemma zero_scale cs : forall d, fold_left (fun d c => dset c 0 d) cs (scale_dict k d)
  = scale_dict k (fold_left (fun d c => dset c 0 d) cs d).
Proof. induction cs as [|c r IH]; intro d; cbn [fold_left]; [reflexivity|]. rewrite <- IH, <- dset_scale, Z.mul_0_r. reflexivity. Qed.

Lemma round_scale cs ls : irv_round cs (map scale_line ls) = rmap scale_round (irv_round cs ls).
Proof.
  unfold irv_round. eapply bind_rmap; [apply (discard_scale (length ls)); lia|]. intros [ov pr] _. cbn [fst snd].
  eapply (bind_rmap scale_state).
  - rewrite <- (foldM_rmap scale_line scale_state count_step count_step pr count_scale).
    unfold scale_state. cbn [fst snd]. rewrite <- zero_scale, Z.mul_0_r. reflexivity.
  - intros [[rc bc] ex] _. unfold scale_state. cbn [fst snd]. rewrite dvals_scale, min_scale, max_scale, zsum_scale.
    destruct (py_min (dvals rc)) as [mn|e]; cbn [bind rmap]; [|reflexivity].
    destruct (py_max (dvals rc)) as [mx|e]; cbn [bind rmap]; [|reflexivity].
    rewrite eqb_scale, filter_scale, min_scale. destruct (mn =? mx); [reflexivity|].
    destruct (py_min (filter (fun v => v >? mn) (dvals rc))) as [pen|e]; reflexivity.
Qed.

Lemma filter_scale_dict (p q : Z -> bool) d : (forall v, p (k * v) = q v) ->
  map fst (filter (fun cv => p (snd cv)) (scale_dict k d)) = map fst (filter (fun cv => q (snd cv)) d).
Proof.
  intro H. unfold scale_dict. induction d as [|[c v] r IH]; cbn [map filter fst snd]; [reflexivity|].
  rewrite H. destruct (q v); cbn [map fst]; rewrite IH; reflexivity.
Qed.

Lemma bottom_scale ri : bottom_cands (scale_round ri) = bottom_cands ri.
Proof. unfold bottom_cands, scale_round. cbn [ri_roundcount ri_min].
  apply (filter_scale_dict (fun v => v <=? k * ri_min ri) (fun v => v <=? ri_min ri)). intro v. apply leb_scale. Qed.
Lemma maxc_scale ri : max_cands (scale_round ri) = max_cands ri.
Proof. unfold max_cands, scale_round. cbn [ri_roundcount ri_max].
  apply (filter_scale_dict (fun v => v =? k * ri_max ri) (fun v => v =? ri_max ri)). intro v. apply eqb_scale. Qed.

Lemma decision_scale o n ri : elim_decision o n (scale_round ri) = elim_decision o n ri.
Proof.
  unfold elim_decision. rewrite bottom_scale. destruct (1 <? length (bottom_cands ri))%nat; [|reflexivity].
  assert (E : zsum (map (fun c => match dget c (ri_roundcount (scale_round ri)) with Some v => v | None => 0 end) (bottom_cands ri))
            = k * zsum (map (fun c => match dget c (ri_roundcount ri) with Some v => v | None => 0 end) (bottom_cands ri))).
  { rewrite <- zsum_scale, map_map. f_equal. apply map_ext. intro c. unfold scale_round. cbn [ri_roundcount]. rewrite dget_scale.
    destruct (dget c (ri_roundcount ri)); cbn [option_map]; lia. }
  rewrite E. change (ri_penult (scale_round ri)) with (k * ri_penult ri). rewrite leb_scale. reflexivity.
Qed.

Lemma eliminate_scale cs : forall ls, eliminate_cands cs (map scale_line ls) = map scale_line (eliminate_cands cs ls).
Proof.
  unfold eliminate_cands. induction cs as [|c r IH]; intro ls; cbn [fold_left]; [reflexivity|]. rewrite <- IH. f_equal.
  rewrite !map_map. apply map_ext. intro l. change (v_prefs (scale_line l)) with (v_prefs l).
  destruct (dmem c (v_prefs l)); reflexivity.
Qed.

Definition scale_outcome (r : list str * list (dict Z) * list irvmeta) : list str * list (dict Z) * list irvmeta :=
  (fst (fst r), map (scale_dict k) (snd (fst r)), map (scale_meta k) (snd r)).

Lemma irv_count_scale o : forall fuel n pa cs ls,
  irv_count fuel o n pa cs (map scale_line ls) = rmap scale_outcome (irv_count fuel o n pa cs ls).
Proof.
  induction fuel as [|q IH]; intros n pa cs ls; cbn [irv_count]; [reflexivity|].
  eapply bind_rmap; [apply round_scale|]. intros ri _. cbv zeta. rewrite decision_scale, maxc_scale.
  assert (Eq : zsum (map v_qty (map scale_line ls)) = k * zsum (map v_qty ls)).
  { rewrite <- zsum_scale, !map_map. reflexivity. }
  rewrite Eq. unfold scale_round. cbn [ri_roundcount ri_pruned ri_overvotes ri_ballotcount ri_exhausted ri_total ri_min ri_max ri_penult].
  rewrite eqb_scale, <- Z.mul_sub_distr_l. destruct (ri_min ri =? ri_max ri); [reflexivity|].
  assert (Eg : (2 * (k * ri_max ri) >? k * ri_total ri) = (2 * ri_max ri >? ri_total ri)).
  { destruct (Z.gtb_spec (2 * (k * ri_max ri)) (k * ri_total ri)), (Z.gtb_spec (2 * ri_max ri) (ri_total ri)); try reflexivity; nia. }
  rewrite Eg. destruct (2 * ri_max ri >? ri_total ri); [reflexivity|].
  rewrite eliminate_scale. eapply bind_rmap; [apply IH|]. intros [[w rs] ms] _. reflexivity.
Qed.
End Homogeneous.

(** Multiplying the quantity of every voteline by the same positive number multiplies every count and
    changes nothing else: the same rounds, eliminations, ties, lots, winners and winner names, or the same
    error. *)
Theorem C80_homogeneous : forall k o m, 0 < k ->
  IRV_dict_from_jabmod o (multiplied k m) =
  match IRV_dict_from_jabmod o m with
  | Ok d => Ok (IrvDict (ir_canddict d) (ir_winner d) (map (scale_dict k) (ir_rounds d)) (map (scale_meta k) (ir_roundmeta d))
                  (ir_winnerstr d) (ir_has_tie d))
  | Err e => Err e
  end.
Proof.
  intros k o m Hk. unfold IRV_dict_from_jabmod. change (j_candidates (multiplied k m)) with (j_candidates m).
  change (j_votelines (multiplied k m)) with (map (scale_line k) (j_votelines m)). rewrite (irv_count_scale k Hk).
  destruct (irv_count _ o _ _ _ _) as [[[w rs] ms]|e]; cbn [rmap bind]; [|reflexivity]. unfold scale_outcome. cbn [fst snd].
  match goal with |- bind ?x _ = _ => destruct x as [ws|e]; cbn [bind]; [|reflexivity] end.
  cbn [ir_canddict ir_winner ir_rounds ir_roundmeta ir_winnerstr ir_has_tie]. f_equal. f_equal.
  rewrite existsb_map. reflexivity.
Qed.
Print Assumptions C80_homogeneous.

(** ** Order of declaration *)
Theorem C80_candidate_order : forall o o' m m' d d', schedule o -> schedule o' -> irv_election m ->
  Permutation (j_candidates m) (j_candidates m') -> j_votelines m' = j_votelines m ->
  IRV_dict_from_jabmod o m = Ok d -> IRV_dict_from_jabmod o' m' = Ok d' ->
  (forall i rc rm, round d i rc rm -> ~ final d i -> im_random_elim rm = false) ->
  Permutation (ir_winner d) (ir_winner d') /\ Forall2 (@Permutation _) (ir_rounds d) (ir_rounds d').
Proof.
  intros o o' m m' d d' Ho Ho' Hm P El E0 E0' Hr.
  assert (Pc : Permutation (cands m) (cands m')) by (apply Permutation_map; exact P).
  assert (Hm' : irv_election m').
  { destruct Hm as (H1&H2&H3). split; [apply (Permutation_NoDup Pc H1)|]. split.
    - intro H. rewrite H in Pc. apply Permutation_sym, Permutation_nil in Pc. contradiction.
    - intros l Hl. rewrite El in Hl. destruct (H3 l Hl) as [[Q1 Q2] Q3]. split; [split; [exact Q1|]|exact Q3].
      intros c Hc. apply (Permutation_in _ Pc), Q2, Hc. }
  destruct (irv_run o m Ho Hm) as (d1&E1&T&_). rewrite E0 in E1. apply ok_inj in E1. subst d1.
  destruct (irv_run o' m' Ho' Hm') as (d1&E1&T'&_). rewrite E0' in E1. apply ok_inj in E1. subst d1.
  rewrite El in T'. destruct (trace_lengths _ _ _ _ _ _ _ _ T) as [L _].
  assert (Hq : forall j rm, nth_error (ir_roundmeta d) j = Some rm -> (S j < length (ir_roundmeta d))%nat -> im_random_elim rm = false).
  { intros j rm Hj Hlt. destruct (nth_error (ir_rounds d) j) as [rc|] eqn:Q; [|apply nth_error_None in Q; lia].
    apply (Hr j rc rm (conj Q Hj)). unfold final. lia. }
  destruct (trace_det o o' _ _ _ _ _ _ _ Ho Ho' T Hq _ _ _ _ _ Pc T') as (W&R&_). split; assumption.
Qed.
Print Assumptions C80_candidate_order.

(** ** A candidate nobody lists *)

Lemma winner_det o o' n pa cs ls w rs ms : valid_oracle o -> valid_oracle o' -> trace o n pa cs ls w rs ms ->
  (forall j rm, nth_error ms j = Some rm -> (S j < length ms)%nat -> im_random_elim rm = false) ->
  forall n' pa' cs' w' rs' ms', Permutation cs cs' -> trace o' n' pa' cs' ls w' rs' ms' -> Permutation w w'.
Proof.
  intros Ho Ho' T. induction T as [n pa cs ls mn mx pen Hn Hne Hl R Hd|n pa cs ls mn mx pen e w rs ms Hn Hne Hl R Hd He T IH];
    intros Hr n' pa' cs' w' rs' ms' P T';
    (assert (Hin : forall c, In c cs <-> In c cs') by (intro c; split; [apply Permutation_in; exact P|apply Permutation_in, Permutation_sym; exact P]));
    (inversion T' as [n2 pa2 cs2 ls2 mn2 mx2 pen2 Hn2 Hne2 Hl2 R2 Hd2|n2 pa2 cs2 ls2 mn2 mx2 pen2 e2 w2 rs2 ms2 Hn2 Hne2 Hl2 R2 Hd2 He2 T2]);
    subst n2 pa2 cs2 ls2;
    destruct (numbers_unique cs cs' ls ls _ _ _ _ _ _ Hin (fun c => eq_refl) R R2) as (<-&<-&<-).
  - apply Permutation_filter; exact P.
  - exfalso. apply Hd2. destruct Hd as [Hd|Hd]; [left; exact Hd|right]. rewrite <- (zsum_tally_perm cs cs' ls P). exact Hd.
  - exfalso. apply Hd. destruct Hd2 as [Hd2|Hd2]; [left; exact Hd2|right]. rewrite (zsum_tally_perm cs cs' ls P). exact Hd2.
  - destruct (elim_agree o o' n n' cs cs' ls mn mx pen P R R2) as (Q1&Q2&Q3).
    assert (Hnr : ed_random (elim_decision o n (ri_of cs ls mn mx pen)) = false).
    { specialize (Hr 0%nat _ eq_refl). apply Hr. destruct (trace_lengths _ _ _ _ _ _ _ _ T) as [L1 L2].
      cbn [length]. destruct rs; [congruence|]. cbn [length] in L1. lia. }
    specialize (Q3 Hnr). rewrite <- He, <- He2 in Q3.
    assert (Hee : forall c, In c e <-> In c e2).
    { intro c; split; [apply Permutation_in; exact Q3|apply Permutation_in, Permutation_sym; exact Q3]. }
    assert (Pn : Permutation (o_order o n (set_minus cs e)) (o_order o' n' (set_minus cs' e2))).
    { eapply perm_trans; [apply Ho|]. eapply perm_trans; [|apply Permutation_sym, Ho'].
      unfold set_minus. eapply perm_trans; [apply Permutation_filter; exact P|].
      erewrite filter_ext; [apply Permutation_refl|]. intro c. cbv beta. f_equal.
      destruct (memb c e) eqn:E1, (memb c e2) eqn:E2; auto.
      - apply memb_In, Hee, memb_In in E1. congruence.
      - apply memb_In, Hee, memb_In in E2. congruence. }
    assert (El : map (without e2) (pruned ls) = map (without e) (pruned ls)).
    { apply map_ext. intro l. symmetry. apply without_ext. exact Hee. }
    rewrite El in T2.
    exact (IH (fun k rm E L => Hr (S k) rm E (proj1 (Nat.succ_lt_mono _ _) L)) _ _ _ _ _ _ Pn T2).
Qed.

Lemma zsum_le_0 l : (forall x, In x l -> x <= 0) -> zsum l <= 0.
Proof.
  induction l as [|x r IH]; intro H; cbn [zsum]; [lia|].
  assert (x <= 0) by (apply H; left; reflexivity). assert (zsum r <= 0) by (apply IH; intros; apply H; right; assumption). lia.
Qed.

Lemma without_none cs e l : incl (map fst (v_prefs l)) cs -> (forall c, In c cs -> ~ In c e) -> without e l = l.
Proof.
  intros Hi He. unfold without. destruct l as [q ps a b c d]. unfold with_prefs. cbn [v_prefs v_qty v_comment v_prefstr v_voterid v_nameq] in *. f_equal.
  induction ps as [|kv r IH]; cbn [filter]; [reflexivity|].
  assert (Hm : memb (fst kv) e = false) by (apply memb_nIn, He, Hi; left; reflexivity). rewrite Hm. cbn [negb]. rewrite IH; [reflexivity|].
  intros x Hx. apply Hi. right; exact Hx.
Qed.

Lemma without_ext_on cs e e' l : incl (map fst (v_prefs l)) cs -> (forall c, In c cs -> (In c e <-> In c e')) -> without e l = without e' l.
Proof.
  intros Hi He. unfold without. f_equal. apply filter_ext_in. intros kv Hk. f_equal.
  assert (Hc : In (fst kv) cs) by (apply Hi, in_map; exact Hk).
  destruct (memb (fst kv) e) eqn:E1, (memb (fst kv) e') eqn:E2; auto.
  - apply memb_In, (He _ Hc), memb_In in E1. congruence.
  - apply memb_In, (He _ Hc), memb_In in E2. congruence.
Qed.

Lemma bottom_goes o n cs ls mn mx pen : round_numbers cs ls mn mx pen -> mn = 0 -> mn <> mx ->
  ed_eliminated (elim_decision o n (ri_of cs ls mn mx pen)) = filter (fun c => tally ls c =? 0) cs.
Proof.
  intros R E0 Hne. destruct (elim_spec o n cs ls mn mx pen _ (rn_min _ _ _ _ _ R) eq_refl) as (_&_&Hc). subst mn.
  destruct Hc as [[_ ->]|[[_ [_ ->]]|[_ [H _]]]]; [reflexivity|reflexivity|exfalso].
  assert (Hz : zsum (map (tally ls) (filter (fun c => tally ls c =? 0) cs)) <= 0).
  { apply zsum_le_0. intros x Hx. apply in_map_iff in Hx as [c [<- Hc]]. apply filter_In in Hc as [_ Hc]. lia. }
  destruct (rn_pen _ _ _ _ _ R) as [_ Hp]. destruct (Hp Hne) as [[c [Hc Ec]] _]. apply filter_In in Hc as [_ Hc].
  destruct (Z.gtb_spec (tally ls c) 0); [lia|discriminate].
Qed.

Lemma null_candidate o o' n n' pa pa' cs ls w rs ms z cs2 w' rs' ms' : valid_oracle o -> valid_oracle o' ->
  trace o n pa cs ls w rs ms ->
  (forall j rm, nth_error ms j = Some rm -> (S j < length ms)%nat -> im_random_elim rm = false) ->
  strict_lines ls -> nonneg_lines ls -> 0 < zsum (map (tally ls) cs) -> ~ In z cs ->
  Permutation (z :: cs) cs2 -> trace o' n' pa' cs2 ls w' rs' ms' -> Permutation w w'.
Proof.
  intros Ho Ho' T Hr Hs Hq Ht Hz P T'.
  assert (Hl : lines_inv cs ls) by (inversion T; assumption).
  destruct (strict_pruned cs ls Hl Hs) as [Ep _].
  assert (Tz : tally ls z = 0).
  { unfold tally, ballots_where. apply zsum_map_0. intros l Hll. rewrite Ep in Hll. destruct (Hl l Hll) as [[_ Hi] Hk].
    unfold is_top. destruct (top l) as [x|] eqn:Ex; [|reflexivity]. destruct (top_In l x Hk Ex) as [Hx _]. apply Hi in Hx.
    assert (Hxz : str_eqb x z = false) by (apply str_eqb_neq; intros ->; contradiction). rewrite Hxz. reflexivity. }
  assert (T0 : forall c, 0 <= tally ls c) by (intro c; apply (tally_nonneg cs); assumption).
  assert (Hsum : zsum (map (tally ls) cs2) = zsum (map (tally ls) cs)).
  { rewrite <- (zsum_tally_perm _ _ ls P). cbn [map zsum]. lia. }
  assert (Hin : forall c, In c cs2 <-> z = c \/ In c cs).
  { intro c. split; intro H; [apply (Permutation_in _ (Permutation_sym P)) in H; exact H|apply (Permutation_in _ P); exact H]. }
  assert (Num : forall mn mx pen mn2 mx2 pen2, round_numbers cs ls mn mx pen -> round_numbers cs2 ls mn2 mx2 pen2 ->
            mn2 = 0 /\ mx2 = mx /\ 0 < mx).
  { intros mn mx pen mn2 mx2 pen2 R R2. destruct (rn_max _ _ _ _ _ R) as [[c [Hc Ec]] Hx].
    assert (Hmx : 0 < mx).
    { destruct (Z.lt_decidable 0 mx) as [H|H]; [exact H|]. exfalso.
      assert (zsum (map (tally ls) cs) <= 0); [|lia]. apply zsum_le_0. intros x Hx'. apply in_map_iff in Hx' as [y [<- Hy]]. specialize (Hx y Hy). lia. }
    destruct (rn_max _ _ _ _ _ R2) as [[c2 [Hc2 Ec2]] Hx2]. destruct (rn_min _ _ _ _ _ R2) as [[c3 [Hc3 Ec3]] Hn2].
    assert (mn2 <= tally ls z) by (apply Hn2, Hin; left; reflexivity). assert (0 <= tally ls c3) by apply T0.
    assert (tally ls c <= mx2) by (apply Hx2, Hin; right; exact Hc).
    split; [lia|]. split; [|exact Hmx]. apply Hin in Hc2 as [<-|Hc2]; [lia|]. specialize (Hx c2 Hc2). lia. }
  (* after the first round of the second count only candidates of the first with a vote are left *)
  assert (Next : forall n2 mn2 mx2 pen2, round_numbers cs2 ls mn2 mx2 pen2 -> mn2 = 0 -> mn2 <> mx2 ->
     let e2 := ed_eliminated (elim_decision o' n2 (ri_of cs2 ls mn2 mx2 pen2)) in
     (forall c, In c e2 <-> z = c \/ (In c cs /\ tally ls c = 0)) /\
     Permutation (filter (fun c => negb (tally ls c =? 0)) cs) (o_order o' n2 (set_minus cs2 e2))).
  { intros n2 mn2 mx2 pen2 R2 E2 Hne e2.
    assert (Ee : e2 = filter (fun c => tally ls c =? 0) cs2) by (apply bottom_goes; assumption).
    assert (He : forall c, In c e2 <-> z = c \/ (In c cs /\ tally ls c = 0)).
    { intro c. rewrite Ee, filter_In, Hin, Z.eqb_eq. split; [tauto|]. intros [<-|H]; [auto|tauto]. }
    split; [exact He|]. eapply perm_trans; [|apply Permutation_sym, Ho'].
    unfold set_minus. eapply perm_trans; [|apply Permutation_filter; exact P]. cbn [filter].
    rewrite (proj2 (memb_In z e2) (proj2 (He z) (or_introl eq_refl))). cbn [negb].
    erewrite filter_ext_in; [apply Permutation_refl|]. intros c Hc. cbv beta. f_equal.
    destruct (memb c e2) eqn:E1.
    - apply memb_In, He in E1 as [<-|[_ E1]]; [contradiction|]. apply Z.eqb_eq. exact E1.
    - apply Z.eqb_neq. intro E0. apply memb_nIn in E1. apply E1, He. right; auto. }
  (* if nobody was without votes, the second count continues as the first one starts *)
  assert (Same : forall mn2 mx2 pen2 e2 pa2 w2 rs2 ms2, round_numbers cs2 ls mn2 mx2 pen2 -> mn2 = 0 -> mn2 <> mx2 ->
     e2 = ed_eliminated (elim_decision o' n' (ri_of cs2 ls mn2 mx2 pen2)) ->
     (forall c, In c cs -> tally ls c <> 0) ->
     trace o' (S n') pa2 (o_order o' n' (set_minus cs2 e2)) (map (without e2) (pruned ls)) w2 rs2 ms2 -> Permutation w w2).
  { intros mn2 mx2 pen2 e2 pa2 w2 rs2 ms2 R2 E2 Hne Ee Hnz T2. destruct (Next n' mn2 mx2 pen2 R2 E2 Hne) as [N1 N2]. rewrite <- Ee in N1, N2.
    assert (Ef : filter (fun c => negb (tally ls c =? 0)) cs = cs).
    { clear -Hnz. induction cs as [|c r IH]; cbn [filter]; [reflexivity|].
      rewrite (proj2 (Z.eqb_neq _ _) (Hnz c (or_introl eq_refl))). cbn [negb]. rewrite IH; [reflexivity|]. intros x Hx; apply Hnz; right; exact Hx. }
    rewrite Ef in N2. rewrite Ep in T2.
    assert (El : map (without e2) ls = ls).
    { rewrite <- (map_id ls) at 2. apply map_ext_in. intros l Hll. apply (without_none cs); [apply (Hl l Hll)|].
      intros c Hc Hce. apply N1 in Hce as [<-|[_ H]]; [contradiction|]. exact (Hnz c Hc H). }
    rewrite El in T2. exact (winner_det o o' n pa cs ls w rs ms Ho Ho' T Hr _ _ _ _ _ _ N2 T2). }
  inversion T' as [n2 pa2 cs3 ls2 mn2 mx2 pen2 Hn2 Hne2 Hl2 R2 Hd2|n2 pa2 cs3 ls2 mn2 mx2 pen2 e2 w2 rs2 ms2 Hn2 Hne2 Hl2 R2 Hd2 He2 T2];
    subst n2 pa2 cs3 ls2.
  - inversion T as [n1 pa1 cs1 ls1 mn mx pen Hn1 Hne1 Hl1 R Hd|n1 pa1 cs1 ls1 mn mx pen e w1 rs1 ms1 Hn1 Hne1 Hl1 R Hd He T1];
      subst n1 pa1 cs1 ls1; destruct (Num _ _ _ _ _ _ R R2) as (->&->&Hmx).
    + eapply perm_trans; [|apply Permutation_filter; exact P]. cbn [filter]. rewrite Tz, (proj2 (Z.eqb_neq 0 mx)) by lia. apply Permutation_refl.
    + exfalso. apply Hd. destruct Hd2 as [Hd2|Hd2]; [lia|]. right. lia.
  - inversion T as [n1 pa1 cs1 ls1 mn mx pen Hn1 Hne1 Hl1 R Hd|n1 pa1 cs1 ls1 mn mx pen e w1 rs1 ms1 Hn1 Hne1 Hl1 R Hd He T1];
      subst n1 pa1 cs1 ls1; destruct (Num _ _ _ _ _ _ R R2) as (M1&M2&Hmx).
    + subst w2 rs' ms'. assert (w = filter (fun c => tally ls c =? mx) cs) as Ew by congruence. rewrite Ew in Same.
      refine (Same mn2 mx2 pen2 e2 _ _ _ _ R2 M1 ltac:(lia) He2 _ T2).
      intros c Hc E0. destruct Hd as [Hd|Hd]; [|apply Hd2; right; lia].
      destruct (rn_min _ _ _ _ _ R) as [_ Hmn]. specialize (Hmn c Hc). lia.
    + destruct (Z.eq_dec mn 0) as [Z0|Z0].
      * destruct (Next n' mn2 mx2 pen2 R2 M1 ltac:(lia)) as [N1 N2]. rewrite <- He2 in N1, N2.
        assert (Hnm : mn <> mx) by lia.
        assert (Ee : e = filter (fun c => tally ls c =? 0) cs) by (rewrite He; apply bottom_goes; assumption).
        assert (Hie : forall c, In c e <-> In c cs /\ tally ls c = 0) by (intro c; rewrite Ee, filter_In, Z.eqb_eq; reflexivity).
        assert (El : map (without e2) (pruned ls) = map (without e) (pruned ls)).
        { rewrite Ep. apply map_ext_in. intros l Hll. apply (without_ext_on cs); [apply (Hl l Hll)|].
          intros c Hc. rewrite N1, Hie. split; [intros [<-|H]; [contradiction|exact H]|auto]. }
        rewrite El in T2.
        assert (Pn : Permutation (o_order o n (set_minus cs e)) (o_order o' n' (set_minus cs2 e2))).
        { eapply perm_trans; [apply Ho|]. eapply perm_trans; [|exact N2]. unfold set_minus.
          erewrite filter_ext_in; [apply Permutation_refl|]. intros c Hc. cbv beta. f_equal.
          destruct (memb c e) eqn:E1.
          - apply memb_In, Hie in E1 as [_ E1]. symmetry. apply Z.eqb_eq. exact E1.
          - symmetry. apply Z.eqb_neq. intro E0. apply memb_nIn in E1. apply E1, Hie. auto. }
        subst ms rs. refine (winner_det o o' _ _ _ _ _ _ _ Ho Ho' T1 _ _ _ _ _ _ _ Pn T2).
        intros j rm Hj Hlt. apply (Hr (S j) rm Hj). cbn [length]. lia.
      * refine (Same mn2 mx2 pen2 e2 _ _ _ _ R2 M1 ltac:(lia) He2 _ T2).
        intros c Hc E0. destruct (rn_min _ _ _ _ _ R) as [_ Hmn]. specialize (Hmn c Hc).
        destruct (rn_min _ _ _ _ _ R) as [[c0 [_ E3]] _]. specialize (T0 c0). lia.
Qed.

(** Adding a candidate whom no voteline lists does not change the winners, wherever it is declared and
    in whatever order sets are enumerated, provided the ballots are strict, somebody voted for somebody
    and the count drew no lots. *)
Theorem C80_unlisted_candidate : forall o o' m m' d d' z nm, schedule o -> schedule o' ->
  irv_election m -> strict_election m -> counts_ok m ->
  ~ In z (cands m) -> Permutation ((z, nm) :: j_candidates m) (j_candidates m') -> j_votelines m' = j_votelines m ->
  (exists l, In l (j_votelines m) /\ 0 < v_qty l /\ v_prefs l <> []) ->
  IRV_dict_from_jabmod o m = Ok d -> IRV_dict_from_jabmod o' m' = Ok d' ->
  (forall i rc rm, round d i rc rm -> ~ final d i -> im_random_elim rm = false) ->
  Permutation (ir_winner d) (ir_winner d').
Proof.
  intros o o' m m' d d' z nm Ho Ho' Hm Hs Hq Hz P El (l&Hll&Hql&Hpl) E0 E0' Hr.
  assert (Pc : Permutation (z :: cands m) (cands m')) by exact (Permutation_map fst P).
  assert (Hm' : irv_election m').
  { destruct Hm as (H1&H2&H3). split; [apply (Permutation_NoDup Pc); constructor; assumption|]. split.
    - intro H. rewrite H in Pc. apply Permutation_sym, Permutation_nil in Pc. discriminate.
    - intros x Hx. rewrite El in Hx. destruct (H3 x Hx) as [[Q1 Q2] Q3]. split; [split; [exact Q1|]|exact Q3].
      intros c Hc. apply (Permutation_in _ Pc). right. apply Q2, Hc. }
  destruct (irv_run o m Ho Hm) as (d1&E1&T&_). rewrite E0 in E1. apply ok_inj in E1. subst d1.
  destruct (irv_run o' m' Ho' Hm') as (d1&E1&T'&_). rewrite E0' in E1. apply ok_inj in E1. subst d1.
  rewrite El in T'. destruct (trace_lengths _ _ _ _ _ _ _ _ T) as [L _].
  assert (Hr' : forall j rm, nth_error (ir_roundmeta d) j = Some rm -> (S j < length (ir_roundmeta d))%nat -> im_random_elim rm = false).
  { intros j rm Hj Hlt. destruct (nth_error (ir_rounds d) j) as [rc|] eqn:Q; [|apply nth_error_None in Q; lia].
    apply (Hr j rc rm (conj Q Hj)). unfold final. lia. }
  refine (null_candidate o o' _ _ _ _ _ _ _ _ _ z _ _ _ _ Ho Ho' T Hr' Hs Hq _ Hz Pc T').
  destruct Hm as (Hn&Hne&Hl).
  assert (Hli : lines_inv (cands m) (j_votelines m)) by (intros x Hx; exact (Hl x Hx)).
  destruct (strict_pruned _ _ Hli Hs) as [Ep _].
  destruct (Hl l Hll) as [[Q1 Q2] Q3].
  assert (Ht : exists c, top l = Some c /\ In c (cands m)).
  { destruct (sort_asc snd (map with_rank (v_prefs l))) as [|[k x] r] eqn:Es.
    - assert (Pe : Permutation (sort_asc snd (map with_rank (v_prefs l))) (map with_rank (v_prefs l))) by apply sort_asc_perm.
      rewrite Es in Pe. apply Permutation_nil, map_eq_nil in Pe. contradiction.
    - destruct (strict_sorted l k x r Q1 Q3 (Hs l Hll) Es) as (_&_&H3&_&H5&H6). exists k. split; [|apply Q2; exact H5].
      apply (strict_top l k Q1 Q3 (Hs l Hll)). split; [apply lists_In; exact H5|].
      intros c Hc Hck. unfold prefers. rewrite H3. destruct (rank_on l c) as [y|] eqn:Ey; [|reflexivity].
      specialize (H6 c y Ey Hck). apply Z.ltb_lt. exact H6. }
  destruct Ht as (c&Htop&Hc).
  assert (Hpos : 0 < tally (j_votelines m) c).
  { unfold tally. rewrite Ep. unfold ballots_where. apply in_split in Hll as (a&b&Eab). rewrite Eab in *.
    rewrite map_app, zsum_app. cbn [map zsum]. unfold is_top at 2. rewrite Htop, str_eqb_refl.
    assert (Hnn : forall ls, incl ls (a ++ l :: b) -> 0 <= zsum (map (fun l => if is_top l c then v_qty l else 0) ls)).
    { intros ls Hi. apply zsum_nonneg. intros x Hx. apply in_map_iff in Hx as [y [<- Hy]].
      assert (0 <= v_qty y) by (apply Hq; rewrite Eab; apply Hi; exact Hy). destruct (is_top y c); lia. }
    assert (0 <= zsum (map (fun l => if is_top l c then v_qty l else 0) a)) by (apply Hnn; intros x Hx; apply in_or_app; left; exact Hx).
    assert (0 <= zsum (map (fun l => if is_top l c then v_qty l else 0) b)) by (apply Hnn; intros x Hx; apply in_or_app; right; right; exact Hx).
    lia. }
  assert (Hall : forall x, 0 <= tally (j_votelines m) x) by (intro x; apply (tally_nonneg (cands m)); assumption).
  apply in_split in Hc as (a&b&->). rewrite map_app, zsum_app. cbn [map zsum].
  assert (forall l, 0 <= zsum (map (tally (j_votelines m)) l)).
  { intro s. apply zsum_nonneg. intros x Hx. apply in_map_iff in Hx as [y [<- _]]. apply Hall. }
  pose proof (H a). pose proof (H b). lia.
Qed.
Print Assumptions C80_unlisted_candidate.

(** ** The hypotheses are met, and needed *)

Definition renamer2 (s : str) : str := match s with [] => [] | _ => u "cand_" ++ s end.
Lemma renamer2_ok : (forall x y, renamer2 x = renamer2 y -> x = y) /\ (forall x, renamer2 x = [] <-> x = []).
Proof.
  split.
  - intros [|a x] [|b y] H; cbn [renamer2] in H; [reflexivity|discriminate|discriminate|].
    apply app_inv_head in H. exact H.
  - intros [|a x]; cbn [renamer2]; split; intro H; try reflexivity; discriminate.
Qed.
Example C80_neutral_nonvacuous : (forall x y, renamer2 x = renamer2 y -> x = y) /\ (forall x, renamer2 x = [] <-> x = []) /\
  schedule o_rev /\ irv_election irv_sample /\
  (forall n l, o_order o_rev n (map renamer2 l) = map renamer2 (o_order o_rev n l)) /\
  exists d d', IRV_dict_from_jabmod o_rev irv_sample = Ok d /\ IRV_dict_from_jabmod o_rev (rename_tokens renamer2 irv_sample) = Ok d' /\
    ir_winner d = [B] /\ ir_winner d' = [u "cand_B"] /\ map im_random_elim (ir_roundmeta d) = [false; false; false] /\
    map (map snd) (ir_rounds d') = [[7; 5; 2; 1; 1]; [2; 6; 7]; [7; 8]].
Proof.
  split; [apply renamer2_ok|]. split; [apply renamer2_ok|]. split; [exact o_rev_ok|]. split; [exact irv_sample_ok|].
  split; [intros n l; cbn [o_rev o_order]; symmetry; apply map_rev|].
  do 2 eexists. split; [vm_compute; reflexivity|]. split; [vm_compute; reflexivity|]. vm_compute. repeat split; reflexivity.
Qed.

Example C80_homogeneous_nonvacuous : exists d, IRV_dict_from_jabmod o0 (multiplied 3 irv_sample) = Ok d /\
  map (map snd) (ir_rounds d) = [[21; 15; 6; 3; 3]; [21; 18; 6]; [21; 24]].
Proof. eexists. split; vm_compute; reflexivity. Qed.

(** A tie for last place decided by lot: reordering the candidates changes who is drawn. *)
Theorem C80_candidate_order_lot_refuted : exists m m' d d', irv_election m /\ strict_election m /\
  Permutation (j_candidates m) (j_candidates m') /\ j_votelines m' = j_votelines m /\
  IRV_dict_from_jabmod o0 m = Ok d /\ IRV_dict_from_jabmod o0 m' = Ok d' /\ ir_winner d = [B] /\ ir_winner d' = [A].
Proof.
  exists lot_sample, (Jabmod [] [(B, u "b"); (A, u "a"); (C, u "c")] (j_votelines lot_sample)). do 2 eexists.
  split; [irv_elec|]. split; [strict_elec|]. split; [apply perm_swap|]. split; [reflexivity|].
  split; [vm_compute; reflexivity|]. split; [vm_compute; reflexivity|]. split; reflexivity.
Qed.
Print Assumptions C80_candidate_order_lot_refuted.

Example C80_unlisted_nonvacuous : exists d d', IRV_dict_from_jabmod o0 irv_sample = Ok d /\
  ~ In (u "Z") (cands irv_sample) /\ strict_election irv_sample /\ counts_ok irv_sample /\
  Permutation ((u "Z", u "Zed") :: j_candidates irv_sample) (rev ((u "Z", u "Zed") :: j_candidates irv_sample)) /\
  IRV_dict_from_jabmod o_rev (Jabmod [] (rev ((u "Z", u "Zed") :: j_candidates irv_sample)) (j_votelines irv_sample)) = Ok d' /\
  ir_winner d = [B] /\ ir_winner d' = [B] /\ length (ir_rounds d) = 3%nat /\ length (ir_rounds d') = 4%nat.
Proof.
  do 2 eexists. split; [vm_compute; reflexivity|]. split; [simpl; intuition discriminate|].
  split; [strict_elec|]. split; [exact irv_sample_counts|]. split; [apply Permutation_rev|].
  split; [vm_compute; reflexivity|]. vm_compute. repeat split; reflexivity.
Qed.

(** With equal ranks an unlisted candidate can change the winners: the additional round discards the
    overvote that the first round skipped. *)
Theorem C80_unlisted_overvotes_refuted : exists m m' d d', irv_election m /\ counts_ok m /\ ~ In (u "Z") (cands m) /\
  j_candidates m' = j_candidates m ++ [(u "Z", u "Z")] /\ j_votelines m' = j_votelines m /\
  IRV_dict_from_jabmod o0 m = Ok d /\ IRV_dict_from_jabmod o0 m' = Ok d' /\
  (forall rm, In rm (ir_roundmeta d ++ ir_roundmeta d') -> im_winner rm = None -> im_random_elim rm = false) /\
  ir_winner d = [A; B; C] /\ ir_winner d' = [A; B].
Proof.
  exists (Jabmod [] [(A, A); (B, B); (C, C)] [over 5; over 4; vl 4 [(A, ranked 1)]; vl 4 [(B, ranked 1)]]).
  exists (Jabmod [] [(A, A); (B, B); (C, C); (u "Z", u "Z")] [over 5; over 4; vl 4 [(A, ranked 1)]; vl 4 [(B, ranked 1)]]).
  do 2 eexists. split; [irv_elec|]. split; [intros l Hl; simpl in Hl; intuition (subst; cbn; lia)|].
  split; [simpl; intuition discriminate|]. split; [reflexivity|]. split; [reflexivity|].
  split; [vm_compute; reflexivity|]. split; [vm_compute; reflexivity|]. split; [|split; reflexivity].
  intros rm Hrm Hw. simpl in Hrm. repeat (destruct Hrm as [<- |Hrm]; [try reflexivity; discriminate|]). destruct Hrm.
Qed.
Print Assumptions C80_unlisted_overvotes_refuted.

(** Two files in each of which the same candidate wins can elect another when joined. *)
Theorem C80_joint_refuted : exists o m1 m2 d1 d2 d, schedule o /\
  irv_election m1 /\ strict_election m1 /\ counts_ok m1 /\ irv_election m2 /\ strict_election m2 /\ counts_ok m2 /\
  j_candidates m2 = j_candidates m1 /\
  IRV_dict_from_jabmod o m1 = Ok d1 /\ IRV_dict_from_jabmod o m2 = Ok d2 /\
  IRV_dict_from_jabmod o (with_lines m1 (j_votelines m1 ++ j_votelines m2)) = Ok d /\
  ir_winner d1 = [C] /\ ir_winner d2 = [C] /\ ir_winner d = [A] /\
  ir_has_tie d1 = false /\ ir_has_tie d2 = false /\ ir_has_tie d = false.
Proof.
  exists o0, (Jabmod [] [(A, A); (B, B); (C, C)] [vl 3 [(C, ranked 1); (A, ranked 2); (B, ranked 3)]; vl 2 [(A, ranked 1); (C, ranked 2); (B, ranked 3)]; vl 3 [(B, ranked 1); (A, ranked 2); (C, ranked 3)]]).
  exists (Jabmod [] [(A, A); (B, B); (C, C)] [vl 3 [(C, ranked 1); (B, ranked 2); (A, ranked 3)]; vl 2 [(A, ranked 1); (C, ranked 2); (B, ranked 3)]]).
  do 3 eexists. split; [exact o0_ok|]. split; [irv_elec|]. split; [strict_elec|].
  split; [intros l Hl; simpl in Hl; intuition (subst; cbn; lia)|]. split; [irv_elec|]. split; [strict_elec|].
  split; [intros l Hl; simpl in Hl; intuition (subst; cbn; lia)|]. split; [reflexivity|].
  split; [vm_compute; reflexivity|]. split; [vm_compute; reflexivity|]. split; [vm_compute; reflexivity|]. repeat split; reflexivity.
Qed.
Print Assumptions C80_joint_refuted.
