(** * IrvFacts: lemmas about abiflib/irvtally.py *)

From Verif Require Import PyBase PyFacts Jabmod PairwiseModel Spec PairwiseFacts IrvModel.
Local Open Scope Z_scope.

(** ** One voteline *)

(** Every listed candidate has a rank. *)
Definition has_ranks (l : voteline) : Prop := forall c p, In (c, p) (v_prefs l) -> p_rank p <> None.

Definition rk (p : pref) : Z := match p_rank p with Some r => r | None => 0 end.
Definition with_rank (kv : str * pref) : str * Z := (fst kv, rk (snd kv)).

Lemma ranked_list_ok ps :
  (forall c p, In (c, p) ps -> p_rank p <> None) -> ranked_list ps = Ok (sort_asc snd (map with_rank ps)).
Proof.
  intro H. unfold ranked_list. rewrite (mapM_ok _ with_rank); [reflexivity|].
  intros [c p] Hc. unfold with_rank, rk. cbn [fst snd]. specialize (H c p Hc). destruct (p_rank p); [reflexivity|congruence].
Qed.

Lemma top_overvoted_ok l : has_ranks l -> exists b, top_overvoted l = Ok b.
Proof.
  intro H. unfold top_overvoted. rewrite ranked_list_ok by exact H. cbn [bind].
  destruct (sort_asc snd (map with_rank (v_prefs l))) as [|[k x] r]; eauto.
Qed.

Lemma topcand_ok fuel ps :
  (forall c p, In (c, p) ps -> p_rank p <> None) -> (length ps <= fuel)%nat ->
  exists r, topcand fuel ps = Ok r /\ forall c, r = Some c -> In c (map fst ps).
Proof.
  revert ps; induction fuel as [|f IH]; intros ps H Hl.
  - destruct ps; [|simpl in Hl; lia]. exists None. split; [reflexivity|discriminate].
  - cbn [topcand]. rewrite ranked_list_ok by exact H. cbn [bind].
    assert (P : Permutation (sort_asc snd (map with_rank ps)) (map with_rank ps)) by apply sort_asc_perm.
    destruct (sort_asc snd (map with_rank ps)) as [|[k x] r] eqn:Es.
    + exists None. split; [reflexivity|discriminate].
    + destruct (Nat.eqb (tier_end ((k, x) :: r) x) 0) eqn:Ey.
      * exists (Some k). split; [reflexivity|]. intros c Hc. inversion Hc; subst.
        assert (Hi : In (c, x) (map with_rank ps)) by (apply (Permutation_in _ P); left; reflexivity).
        apply in_map_iff in Hi as [[c0 p0] [E Hi]]. inversion E; subst. change c with (fst (c, p0)). apply in_map; exact Hi.
      * set (kl := map fst (skipn (S (tier_end ((k, x) :: r) x)) ((k, x) :: r))).
        destruct (IH (flat_map (fun k0 => match dget k0 ps with Some p => [(k0, p)] | None => [] end) kl)) as [res [Er Hr]].
        -- intros c p Hi. apply in_flat_map in Hi as [k0 [_ Hk]]. destruct (dget k0 ps) as [p0|] eqn:Ed; [|destruct Hk].
           destruct Hk as [Hk|[]]. inversion Hk; subst. apply dget_In in Ed. exact (H _ _ Ed).
        -- assert (L1 : forall l, (length (flat_map (fun k0 => match dget k0 ps with Some p => [(k0, p)] | None => [] end) l) <= length l)%nat).
           { induction l as [|a l IHl]; simpl; [lia|]. destruct (dget a ps); simpl; lia. }
           specialize (L1 kl). assert (L2 : (length kl <= length r)%nat).
           { unfold kl. rewrite map_length. cbn [skipn]. rewrite skipn_length. lia. }
           apply Permutation_length in P. rewrite map_length in P. simpl in P. lia.
        -- exists res. split; [exact Er|]. intros c Hc. specialize (Hr c Hc).
           apply in_map_iff in Hr as [[c0 p0] [E Hi]]. simpl in E; subst c0.
           apply in_flat_map in Hi as [k0 [_ Hk]]. destruct (dget k0 ps) as [p1|] eqn:Ed; [|destruct Hk].
           destruct Hk as [Hk|[]]. inversion Hk; subst. apply dget_In in Ed. change c with (fst (c, p0)). apply in_map; exact Ed.
Qed.

(** The candidate a line counts for, if any (the empty token counts for nobody). *)
Definition top (l : voteline) : option str :=
  match topcand (length (v_prefs l)) (v_prefs l) with
  | Ok (Some (a :: s)) => Some (a :: s)
  | _ => None
  end.
Definition is_top (l : voteline) (c : str) : bool :=
  match top l with Some x => str_eqb x c | None => false end.
Definition no_top (l : voteline) : bool := match top l with Some _ => false | None => true end.

Lemma top_In l c : has_ranks l -> top l = Some c -> In c (map fst (v_prefs l)) /\ c <> [].
Proof.
  intros H E. unfold top in E. destruct (topcand_ok (length (v_prefs l)) (v_prefs l) H (le_n _)) as [r [Er Hr]].
  rewrite Er in E. destruct r as [[|a s]|]; try discriminate. inversion E; subst.
  split; [apply Hr; reflexivity|discriminate].
Qed.

(** ** Discarding *)

Lemma voteline_ind2 (P : list voteline -> Prop) :
  P [] -> (forall l r, P r -> (forall l2 r2, r = l2 :: r2 -> P r2) -> P (l :: r)) -> forall ls, P ls.
Proof.
  intros H0 H1. assert (G : forall ls, P ls /\ forall l2 r2, ls = l2 :: r2 -> P r2).
  { induction ls as [|l r [IH1 IH2]]; split; auto; intros l2 r2 E; [discriminate|]. inversion E; subst; auto. }
  apply G.
Qed.

Lemma discard_ok ls :
  (forall l, In l ls -> has_ranks l) ->
  exists ov k, discard_overvotes ls = Ok (ov, k) /\ incl k ls /\
               zsum (map v_qty ls) = ov + zsum (map v_qty k).
Proof.
  induction ls as [|l r IH IH2] using voteline_ind2; intro H; cbn [discard_overvotes].
  - exists 0, []. split; [reflexivity|]. split; [intros x []|reflexivity].
  - destruct (top_overvoted_ok l (H l (or_introl eq_refl))) as [b Eb]. rewrite Eb. cbn [bind].
    destruct b.
    + destruct r as [|l2 r2].
      * exists (v_qty l), []. split; [reflexivity|]. split; [intros x []|simpl; lia].
      * destruct (IH2 l2 r2 eq_refl) as [ov [k [E [Hi Hs]]]]; [intros; apply H; right; right; assumption|].
        rewrite E. cbn [bind]. exists (v_qty l + ov), (l2 :: k). split; [reflexivity|]. split.
        -- intros x [<-|Hx]; [right; left; reflexivity|right; right; apply Hi; exact Hx].
        -- cbn [map zsum]. lia.
    + destruct IH as [ov [k [E [Hi Hs]]]]; [intros; apply H; right; assumption|].
      rewrite E. cbn [bind]. exists ov, (l :: k). split; [reflexivity|]. split.
      * intros x [<-|Hx]; [left; reflexivity|right; apply Hi; exact Hx].
      * cbn [map zsum]. lia.
Qed.

Definition pruned (ls : list voteline) : list voteline :=
  match discard_overvotes ls with Ok (_, k) => k | Err _ => [] end.
Definition overvoted (ls : list voteline) : Z :=
  match discard_overvotes ls with Ok (o, _) => o | Err _ => 0 end.

Lemma discard_eq ls : (forall l, In l ls -> has_ranks l) ->
  discard_overvotes ls = Ok (overvoted ls, pruned ls) /\ incl (pruned ls) ls /\
  zsum (map v_qty ls) = overvoted ls + zsum (map v_qty (pruned ls)).
Proof.
  intro H. destruct (discard_ok ls H) as [ov [k [E [Hi Hs]]]]. unfold pruned, overvoted. rewrite E. auto.
Qed.

(** ** Counting *)

(** Votes of candidate [c], and exhausted ballots, of one round. *)
Definition tally (ls : list voteline) (c : str) : Z := ballots_where (fun l => is_top l c) (pruned ls).
Definition exhausted (ls : list voteline) : Z := ballots_where no_top (pruned ls).

Definition lines_inv (cs : list str) (ls : list voteline) : Prop :=
  forall l, In l ls -> line_ok cs l /\ has_ranks l.

Lemma count_fold_ok cs ls g bc ex :
  NoDup cs -> lines_inv cs ls ->
  foldM count_step ls (dmap cs g, bc, ex) =
  Ok (dmap cs (fun c => g c + ballots_where (fun l => is_top l c) ls),
      bc + zsum (map v_qty ls), ex + ballots_where no_top ls).
Proof.
  intro Hn. revert g bc ex. induction ls as [|l r IH]; intros g bc ex H.
  - cbn [foldM]. f_equal. f_equal; [f_equal|].
    + apply dmap_ext. intros c _. unfold ballots_where. simpl. lia.
    + simpl; lia.
    + unfold ballots_where. simpl. lia.
  - destruct (H l (or_introl eq_refl)) as [[Hl1 Hl2] Hl3].
    assert (Hr : lines_inv cs r) by (intros x Hx; apply H; right; exact Hx).
    cbn [foldM]. unfold count_step at 1.
    destruct (topcand_ok (length (v_prefs l)) (v_prefs l) Hl3 (le_n _)) as [res [Er Hi]]. rewrite Er. cbn [bind].
    destruct res as [[|a s]|].
    1,3: cbn [bind]; rewrite IH by exact Hr; f_equal; f_equal; [f_equal|];
      [apply dmap_ext; intros c _; unfold ballots_where, is_top, top; cbn [map zsum]; rewrite Er; lia
      |cbn [map zsum]; lia
      |unfold ballots_where, no_top, top; cbn [map zsum]; rewrite Er; lia].
    rewrite dmodE_dmap; [|exact Hn|apply Hl2, Hi; reflexivity]. cbn [bind]. rewrite IH by exact Hr.
    f_equal; f_equal; [f_equal|].
    + apply dmap_ext. intros c _. unfold ballots_where, is_top, top. cbn [map zsum]. rewrite Er.
      destruct (str_eqb (a :: s) c); lia.
    + cbn [map zsum]. lia.
    + unfold ballots_where, no_top, top. cbn [map zsum]. rewrite Er. lia.
Qed.

Definition ri_of (cs : list str) (ls : list voteline) (mn mx pen : Z) : roundinfo :=
  RoundInfo (dmap cs (tally ls)) (pruned ls) (overvoted ls) (zsum (map v_qty (pruned ls)))
    (exhausted ls) (zsum (map (tally ls) cs)) mn mx pen.

(** [x] is the least / greatest value of [f] on [cs]. *)
Definition least (f : str -> Z) (cs : list str) (x : Z) : Prop :=
  (exists c, In c cs /\ f c = x) /\ forall c, In c cs -> x <= f c.
Definition greatest (f : str -> Z) (cs : list str) (x : Z) : Prop :=
  (exists c, In c cs /\ f c = x) /\ forall c, In c cs -> f c <= x.

Definition penult_spec (f : str -> Z) (cs : list str) (mn mx pen : Z) : Prop :=
  (mn = mx -> pen = mx) /\ (mn <> mx -> least f (filter (fun c => f c >? mn) cs) pen).

Lemma py_min_least (f : str -> Z) cs : cs <> [] -> exists x, py_min (map f cs) = Ok x /\ least f cs x.
Proof.
  intro H. destruct (py_min_ok (map f cs)) as [x Ex]; [destruct cs; [congruence|discriminate]|].
  exists x. split; [exact Ex|]. apply py_min_spec in Ex as [Hi Hl]. split.
  - apply in_map_iff in Hi as [c [E Hc]]. eauto.
  - intros c Hc. apply Hl. apply in_map; exact Hc.
Qed.

Lemma py_max_greatest (f : str -> Z) cs : cs <> [] -> exists x, py_max (map f cs) = Ok x /\ greatest f cs x.
Proof.
  intro H. destruct (py_max_ok (map f cs)) as [x Ex]; [destruct cs; [congruence|discriminate]|].
  exists x. split; [exact Ex|]. apply py_max_spec in Ex as [Hi Hl]. split.
  - apply in_map_iff in Hi as [c [E Hc]]. eauto.
  - intros c Hc. apply Hl. apply in_map; exact Hc.
Qed.

Lemma filter_map_comm {A B} (f : A -> B) (p : B -> bool) l : filter p (map f l) = map f (filter (fun x => p (f x)) l).
Proof. induction l as [|x r IH]; simpl; [reflexivity|]. destruct (p (f x)); simpl; rewrite IH; reflexivity. Qed.

Lemma irv_round_ok cs ls :
  NoDup cs -> cs <> [] -> lines_inv cs ls ->
  exists mn mx pen, irv_round cs ls = Ok (ri_of cs ls mn mx pen) /\
    least (tally ls) cs mn /\ greatest (tally ls) cs mx /\ penult_spec (tally ls) cs mn mx pen.
Proof.
  intros Hn Hne H. unfold irv_round.
  assert (E0 : fold_left (fun (d : dict Z) c => dset c 0 d) cs [] = dmap cs (fun _ => 0))
    by (apply (fold_dset_dmap (fun _ => 0) cs []); exact Hn).
  rewrite E0.
  destruct (discard_eq ls) as [Ed [Hi _]]; [intros l Hl; apply H; exact Hl|].
  rewrite Ed. cbn [bind]. rewrite count_fold_ok; [|exact Hn|intros l Hl; apply H, Hi, Hl]. cbn [bind].
  assert (Eg : dmap cs (fun c => 0 + ballots_where (fun l => is_top l c) (pruned ls)) = dmap cs (tally ls)).
  { apply dmap_ext. intros c _. unfold tally. lia. }
  rewrite Eg, dvals_dmap.
  destruct (py_min_least (tally ls) cs Hne) as [mn [En Hmn]]. rewrite En. cbn [bind].
  destruct (py_max_greatest (tally ls) cs Hne) as [mx [Ex Hmx]]. rewrite Ex. cbn [bind].
  destruct (Z.eqb_spec mn mx) as [Heq|Hneq].
  - cbn [bind]. exists mn, mx, mx. split; [|split; [exact Hmn|split; [exact Hmx|]]].
    + unfold ri_of. f_equal.
    + split; [reflexivity|contradiction].
  - assert (Hf : filter (fun c => tally ls c >? mn) cs <> []).
    { destruct Hmx as [[c [Hc Ec]] Hub]. destruct Hmn as [[c' [Hc' Ec']] _]. specialize (Hub c' Hc').
      assert (Hin : In c (filter (fun c => tally ls c >? mn) cs)) by (apply filter_In; split; [exact Hc|lia]).
      intro E. rewrite E in Hin. destruct Hin. }
    rewrite filter_map_comm. destruct (py_min_least (tally ls) _ Hf) as [pen [Ep Hp]]. rewrite Ep. cbn [bind].
    exists mn, mx, pen. split; [|split; [exact Hmn|split; [exact Hmx|]]].
    + unfold ri_of. f_equal.
    + split; [contradiction|]. intros _. exact Hp.
Qed.

Lemma filter_dmap {V} (p : str * V -> bool) cs (f : str -> V) :
  map fst (filter p (dmap cs f)) = filter (fun c => p (c, f c)) cs.
Proof.
  unfold dmap. rewrite filter_map_comm, map_map. simpl. apply map_id.
Qed.

Lemma bottom_cands_eq cs ls mn mx pen :
  bottom_cands (ri_of cs ls mn mx pen) = filter (fun c => tally ls c <=? mn) cs.
Proof. unfold bottom_cands, ri_of. cbn [ri_roundcount ri_min]. apply filter_dmap. Qed.

Lemma max_cands_eq cs ls mn mx pen :
  max_cands (ri_of cs ls mn mx pen) = filter (fun c => tally ls c =? mx) cs.
Proof. unfold max_cands, ri_of. cbn [ri_roundcount ri_max]. apply filter_dmap. Qed.

(** ** Elimination *)

(** The line without the given candidates. *)
Definition without (e : list str) (l : voteline) : voteline :=
  with_prefs l (filter (fun kv => negb (memb (fst kv) e)) (v_prefs l)).

Lemma NoDup_map_fst_filter {V} (p : str * V -> bool) (d : dict V) : NoDup (map fst d) -> NoDup (map fst (filter p d)).
Proof.
  induction d as [|kv r IH]; simpl; intro H; [constructor|]. inversion H as [|? ? Hk Hr]; subst.
  destruct (p kv); simpl; auto. constructor; auto. intro Hi. apply Hk. apply in_map_iff in Hi as [x [E Hf]].
  apply filter_In in Hf as [Hf _]. rewrite <- E. apply in_map; exact Hf.
Qed.

Lemma filter_filter {A} (p q : A -> bool) l : filter p (filter q l) = filter (fun x => q x && p x) l.
Proof. induction l as [|x r IH]; simpl; [reflexivity|]. destruct (q x); simpl; rewrite IH; reflexivity. Qed.

Lemma filter_all {A} (p : A -> bool) l : (forall x, In x l -> p x = true) -> filter p l = l.
Proof.
  induction l as [|x r IH]; simpl; intro H; [reflexivity|]. rewrite H by auto. rewrite IH; auto.
Qed.

Lemma eliminate_eq e ls :
  (forall l, In l ls -> NoDup (map fst (v_prefs l))) ->
  eliminate_cands e ls = map (without e) ls.
Proof.
  revert ls; induction e as [|c r IH]; intros ls H; unfold eliminate_cands; cbn [fold_left].
  - rewrite <- (map_id ls) at 1. apply map_ext. intros [q ps cm pf vid nq]. unfold without, with_prefs; cbn.
    f_equal. symmetry. apply filter_all. reflexivity.
  - change (eliminate_cands r (map (fun l => if dmem c (v_prefs l) then with_prefs l (ddel c (v_prefs l)) else l) ls)
            = map (without (c :: r)) ls).
    assert (E : forall l, In l ls ->
       (if dmem c (v_prefs l) then with_prefs l (ddel c (v_prefs l)) else l)
       = with_prefs l (filter (fun kv => negb (str_eqb c (fst kv))) (v_prefs l))).
    { intros l Hl. destruct (dmem c (v_prefs l)) eqn:Em.
      - rewrite ddel_filter by (apply H; exact Hl). reflexivity.
      - rewrite filter_all; [destruct l; reflexivity|]. intros kv Hkv. apply negb_true_iff, str_eqb_neq.
        intros ->. assert (dmem (fst kv) (v_prefs l) = true) by (apply dmem_In; apply in_map; exact Hkv). congruence. }
    rewrite (map_ext_in _ _ _ E), IH.
    + rewrite map_map. apply map_ext. intro l. unfold without, with_prefs. cbn. f_equal. rewrite filter_filter.
      apply filter_ext. intros kv. rewrite negb_orb, (str_eqb_sym c). reflexivity.
    + intros l Hl. apply in_map_iff in Hl as [l0 [<- Hl0]]. cbn. apply NoDup_map_fst_filter. apply H; exact Hl0.
Qed.

(** ** Who is eliminated *)

Lemma elim_spec o n cs ls mn mx pen ed :
  least (tally ls) cs mn -> elim_decision o n (ri_of cs ls mn mx pen) = ed ->
  let bottom := filter (fun c => tally ls c =? mn) cs in
  bottom_cands (ri_of cs ls mn mx pen) = bottom /\ bottom <> [] /\
  ( (length bottom = 1%nat /\ ed = ElimDec None false false bottom (Some bottom))
    \/ ((1 < length bottom)%nat /\ zsum (map (tally ls) bottom) <= pen /\
        ed = ElimDec (Some bottom) true false bottom None)
    \/ ((1 < length bottom)%nat /\ pen < zsum (map (tally ls) bottom) /\
        exists x, In x bottom /\ ed = ElimDec (Some bottom) false true [x] (Some [x])) ).
Proof.
  intros [[c0 [Hc0 Ec0]] Hlb] He bottom.
  assert (Eb : bottom_cands (ri_of cs ls mn mx pen) = bottom).
  { rewrite bottom_cands_eq. apply filter_ext_in. intros c Hc. specialize (Hlb c Hc). lia. }
  assert (Hc : In c0 bottom) by (apply filter_In; split; [exact Hc0|lia]).
  split; [exact Eb|]. split; [intro E; rewrite E in Hc; destruct Hc|].
  unfold elim_decision in He. rewrite Eb in He. cbn [ri_of ri_roundcount ri_penult] in He.
  assert (Es : zsum (map (fun c => match dget c (dmap cs (tally ls)) with Some v => v | None => 0 end) bottom)
             = zsum (map (tally ls) bottom)).
  { apply zsum_map_ext. intros c Hcb. rewrite dget_dmap. unfold bottom in Hcb. apply filter_In in Hcb as [Hcb _].
    rewrite (proj2 (memb_In _ _) Hcb). reflexivity. }
  rewrite Es in He. destruct (Nat.ltb_spec 1 (length bottom)) as [Hl|Hl].
  - right. destruct (Z.leb_spec (zsum (map (tally ls) bottom)) pen) as [Hle|Hgt].
    + left. auto.
    + right. split; [exact Hl|]. split; [exact Hgt|]. eexists. split; [|symmetry; exact He].
      apply nth_In. apply Nat.mod_upper_bound. lia.
  - left. split; [|symmetry; exact He]. destruct bottom; [destruct Hc|cbn [length] in *; lia].
Qed.

(** ** The trace of a whole count *)

Definition mk_meta (n : nat) (cs : list str) (ls : list voteline) (mn mx pen : Z)
    (ed : elimdec) (alle elim : list str) (win : option (list str)) : irvmeta :=
  IrvMeta n (zsum (map v_qty ls)) (exhausted ls) (overvoted ls) (zsum (map v_qty (pruned ls)))
    (zsum (map (tally ls) cs) - exhausted ls) mn mx pen cs mn mx
    (ed_bottomtie ed) (ed_batch ed) (ed_random ed) elim alle win.

Definition decided (cs : list str) (ls : list voteline) (mn mx : Z) : Prop :=
  mn = mx \/ zsum (map (tally ls) cs) < 2 * mx.

Record round_numbers (cs : list str) (ls : list voteline) (mn mx pen : Z) : Prop := {
  rn_min : least (tally ls) cs mn;
  rn_max : greatest (tally ls) cs mx;
  rn_pen : penult_spec (tally ls) cs mn mx pen
}.

Inductive trace (o : oracle) : nat -> option (list str) -> list str -> list voteline ->
                               list str -> list (dict Z) -> list irvmeta -> Prop :=
| trace_final : forall n pa cs ls mn mx pen,
    NoDup cs -> cs <> [] -> lines_inv cs ls ->
    round_numbers cs ls mn mx pen -> decided cs ls mn mx ->
    trace o n pa cs ls (filter (fun c => tally ls c =? mx) cs) [dmap cs (tally ls)]
      [mk_meta n cs ls mn mx pen (elim_decision o n (ri_of cs ls mn mx pen))
         (all_elim pa (elim_decision o n (ri_of cs ls mn mx pen)))
         (set_minus cs (filter (fun c => tally ls c =? mx) cs)) (Some (filter (fun c => tally ls c =? mx) cs))]
| trace_next : forall n pa cs ls mn mx pen e w rs ms,
    NoDup cs -> cs <> [] -> lines_inv cs ls ->
    round_numbers cs ls mn mx pen -> ~ decided cs ls mn mx ->
    e = ed_eliminated (elim_decision o n (ri_of cs ls mn mx pen)) ->
    trace o (S n) (Some (all_elim pa (elim_decision o n (ri_of cs ls mn mx pen))))
      (o_order o n (set_minus cs e)) (map (without e) (pruned ls)) w rs ms ->
    trace o n pa cs ls w (dmap cs (tally ls) :: rs)
      (mk_meta n cs ls mn mx pen (elim_decision o n (ri_of cs ls mn mx pen))
         (all_elim pa (elim_decision o n (ri_of cs ls mn mx pen))) e None :: ms).

Definition valid_oracle (o : oracle) : Prop := forall n l, Permutation (o_order o n l) l.

Lemma has_ranks_without e l : has_ranks l -> has_ranks (without e l).
Proof. intros H c p Hi. cbn in Hi. apply filter_In in Hi as [Hi _]. exact (H c p Hi). Qed.

Lemma next_lines_inv cs cs' e ls :
  lines_inv cs ls -> (forall c, In c (set_minus cs e) -> In c cs') -> lines_inv cs' (map (without e) ls).
Proof.
  intros H Hi l Hl. apply in_map_iff in Hl as [l0 [<- Hl0]]. destruct (H l0 Hl0) as [[H1 H2] H3].
  split; [split|apply has_ranks_without; exact H3].
  - cbn. apply NoDup_map_fst_filter. exact H1.
  - intros c Hc. apply Hi. cbn in Hc. apply in_map_iff in Hc as [kv [E Hf]]. apply filter_In in Hf as [Hf Hm].
    unfold set_minus. apply filter_In. rewrite E in Hm. split; [|exact Hm]. apply H2. rewrite <- E. apply in_map; exact Hf.
Qed.

Lemma set_minus_In a b c : In c (set_minus a b) <-> In c a /\ ~ In c b.
Proof. unfold set_minus. rewrite filter_In, negb_true_iff, memb_nIn. reflexivity. Qed.

(** Facts about the set eliminated in a round that is not final. *)
Lemma elim_facts o n cs ls mn mx pen e :
  NoDup cs -> round_numbers cs ls mn mx pen ->
  e = ed_eliminated (elim_decision o n (ri_of cs ls mn mx pen)) ->
  e <> [] /\ NoDup e /\ incl e cs /\ (forall c, In c e -> tally ls c = mn) /\
  (mn <> mx -> exists c, In c cs /\ ~ In c e /\ tally ls c = mx).
Proof.
  intros Hn R He. destruct (elim_spec o n cs ls mn mx pen _ (rn_min _ _ _ _ _ R) eq_refl) as [_ [Hne Hc]].
  set (bottom := filter (fun c => tally ls c =? mn) cs) in *.
  assert (Hbn : NoDup bottom) by (apply NoDup_filter; exact Hn).
  assert (Hb : forall c, In c bottom -> In c cs /\ tally ls c = mn).
  { intros c Hc'. apply filter_In in Hc' as [H1 H2]. split; [exact H1|lia]. }
  assert (Hin : e <> [] /\ NoDup e /\ incl e bottom).
  { rewrite He. destruct Hc as [[_ ->]|[[_ [_ ->]]|[_ [_ [x [Hx ->]]]]]]; cbn [ed_eliminated].
    - repeat split; auto. apply incl_refl.
    - repeat split; auto. apply incl_refl.
    - split; [discriminate|]. split; [repeat constructor; auto|]. intros y [<-|[]]; exact Hx. }
  destruct Hin as [H1 [H2 H3]]. repeat split; auto.
  - intros c Hc'. apply Hb, H3, Hc'.
  - intros c Hc'. apply Hb, H3, Hc'.
  - intro Hneq. destruct (rn_max _ _ _ _ _ R) as [[c [Hcc Ec]] _]. exists c. repeat split; auto.
    intro Hi. apply H3, Hb in Hi. lia.
Qed.

Lemma set_minus_length cs e c : NoDup cs -> In c e -> In c cs -> (length (set_minus cs e) < length cs)%nat.
Proof.
  intros Hn He Hc. unfold set_minus.
  assert (H : incl (filter (fun x => negb (memb x e)) cs) (others c cs)).
  { intros x Hx. apply filter_In in Hx as [H1 H2]. apply filter_In. split; [exact H1|].
    apply negb_true_iff. apply str_eqb_neq. intros <-. rewrite (proj2 (memb_In _ _) He) in H2. discriminate. }
  apply NoDup_incl_length in H; [|apply NoDup_filter; exact Hn].
  pose proof (others_len c cs Hn Hc). lia.
Qed.

Theorem irv_trace o fuel n pa cs ls :
  valid_oracle o -> NoDup cs -> cs <> [] -> lines_inv cs ls -> (length cs <= fuel)%nat ->
  exists w rs ms, irv_count fuel o n pa cs ls = Ok (w, rs, ms) /\ trace o n pa cs ls w rs ms.
Proof.
  intro Ho. revert n pa cs ls. induction fuel as [|f IH]; intros n pa cs ls Hn Hne Hl Hf.
  - destruct cs; [congruence|simpl in Hf; lia].
  - cbn [irv_count]. destruct (irv_round_ok cs ls Hn Hne Hl) as (mn&mx&pen&Er&Hmn&Hmx&Hp).
    rewrite Er. cbn [bind]. assert (R : round_numbers cs ls mn mx pen) by (constructor; assumption).
    rewrite max_cands_eq. cbn [ri_of ri_min ri_max ri_total ri_exhausted ri_overvotes ri_ballotcount ri_penult ri_pruned ri_roundcount].
    fold (ri_of cs ls mn mx pen).
    destruct (Z.eqb_spec mn mx) as [Heq|Hneq]; [|destruct (Z.gtb_spec (2 * mx) (zsum (map (tally ls) cs))) as [Hgt|Hle]].
    + do 3 eexists. split; [reflexivity|]. apply trace_final; auto. left; exact Heq.
    + do 3 eexists. split; [reflexivity|]. apply trace_final; auto. right; lia.
    + set (e := ed_eliminated (elim_decision o n (ri_of cs ls mn mx pen))).
      destruct (elim_facts o n cs ls mn mx pen e Hn R eq_refl) as (He1&He2&He3&He4&He5).
      assert (P := Ho n (set_minus cs e)).
      destruct (discard_eq ls) as [_ [Hi _]]; [intros l Hll; apply Hl; exact Hll|].
      assert (Hp' : lines_inv cs (pruned ls)) by (intros l Hll; apply Hl, Hi, Hll).
      rewrite eliminate_eq by (intros l Hll; apply Hp'; exact Hll).
      destruct (IH (S n) (Some (all_elim pa (elim_decision o n (ri_of cs ls mn mx pen))))
                  (o_order o n (set_minus cs e)) (map (without e) (pruned ls))) as (w&rs&ms&E&T).
      * apply (Permutation_NoDup (Permutation_sym P)). apply NoDup_filter; exact Hn.
      * destruct (He5 Hneq) as [c [Hc [Hce _]]]. intro E0.
        assert (Hin : In c (o_order o n (set_minus cs e))).
        { apply (Permutation_in _ (Permutation_sym P)). apply set_minus_In; auto. }
        rewrite E0 in Hin. destruct Hin.
      * apply (next_lines_inv cs); [exact Hp'|]. intros c Hc. apply (Permutation_in _ (Permutation_sym P)). exact Hc.
      * rewrite (Permutation_length P). destruct e as [|x e']; [congruence|].
        pose proof (set_minus_length cs (x :: e') x Hn (or_introl eq_refl) (He3 x (or_introl eq_refl))). lia.
      * rewrite E. cbn [bind]. do 3 eexists. split; [reflexivity|]. eapply trace_next; eauto.
        intros [Hd|Hd]; lia.
Qed.
