(** * PropsRepeat: C29, C33 and C34 for lines that name a candidate more than once *)

From Coq Require Import Lia.
From Verif Require Import PyBase PyFacts Jabmod Regex RegexFacts WordTable ScoreModel ScoreFacts Spec ParserModel ParserSpec ParserFacts ParserPrefs ParserRender.
From Verif Require Import PairwiseModel PairwiseFacts PropsPairwise PropsScore ParserFile ParserText ParserLines PropsParser.
Local Open Scope Z_scope.

(** ** The loop *)
Definition stores (l acc : dict pref) : dict pref := fold_left (fun d kv => dset (fst kv) (snd kv) d) l acc.
Lemma loop_again mode r : forall i k pre acc n, (mode = MRankOne -> r = [] /\ k = 1) -> item_ok i -> (forall d j, In (d, j) r -> item_ok j) -> n = (length pre + S (length r))%nat ->
  prefs_loop mode (pre ++ map fst r) n (length pre) k (map (fun i => (item_name i, raw_rating (item_written i))) (items i r)) acc = Ok (stores (loop_result mode k i r) acc).
Proof.
  induction r as [|[d j] r IH]; intros i k pre acc n Hone Hi Hr Hn; [cbn [items map snd prefs_loop loop_result]|].
  - assert (Hlast : (length pre <? n - 1)%nat = false) by (apply Nat.ltb_ge; cbn in Hn; lia). rewrite Hlast.
    assert (Hw : well_written (item_written i)) by (destruct i as [[a w] b]; destruct Hi as (_&Hw&_); exact Hw).
    rewrite (stored_raw _ Hw). unfold stores. cbn [fold_left fst snd].
    destruct mode; cbn [bind]; try (destruct (Hone eq_refl) as [_ ->]); (destruct (raw_rating _) as [rv|]; [destruct (rating_truthy rv)|]; reflexivity).
  - change (items i ((d, j) :: r)) with (i :: items j r) in *. cbn [map fst prefs_loop loop_result].
    assert (Hlast : (length pre <? n - 1)%nat = true) by (apply Nat.ltb_lt; cbn in Hn; lia). rewrite Hlast.
    assert (Hnth : nth_error (pre ++ map fst ((d, j) :: r)) (length pre) = Some d) by (rewrite nth_app_0; reflexivity).
    cbn [map fst] in *. rewrite Hnth. cbn [of_option bind].
    assert (Hw : well_written (item_written i)) by (destruct i as [[a w] b]; destruct Hi as (_&Hw&_); exact Hw).
    rewrite (stored_raw _ Hw).
    assert (Epre : pre ++ d :: map fst r = (pre ++ [d]) ++ map fst r) by (rewrite <- app_assoc; reflexivity).
    assert (Elen : S (length pre) = length (pre ++ [d])) by (rewrite app_length; cbn; lia).
    assert (G : forall p k', prefs_loop mode (pre ++ d :: map fst r) n (S (length pre)) k' (map (fun i => (item_name i, raw_rating (item_written i))) (items j r)) (dset (item_name i) p acc) = Ok (stores ((item_name i, p) :: loop_result mode k' j r) acc)).
    { intros p k'. rewrite Epre, Elen. rewrite IH; [reflexivity|intro Hm; destruct (Hone Hm) as [H _]; discriminate|apply (Hr d); left; reflexivity|intros d' j' H; apply (Hr d'); right; exact H|rewrite app_length; cbn in *; lia]. }
    destruct mode; cbn [bind].
    + assert (Hgt : (d =? ch_gt)%N = (d =? 62)%N) by reflexivity. rewrite Hgt.
      destruct (d =? 62)%N; cbn [bind]; rewrite G; (destruct (raw_rating _) as [rv|]; [destruct (rating_truthy rv)|]; reflexivity).
    + rewrite G. destruct (raw_rating _) as [rv|]; [destruct (rating_truthy rv)|]; try reflexivity. all: do 2 f_equal; f_equal; apply loop_result_rate.
    + destruct (Hone eq_refl) as [H _]. discriminate.
Qed.
Lemma stores_keep c l : forall acc, ~ In c (map fst l) -> dget c (stores l acc) = dget c acc.
Proof.
  induction l as [|[c' p'] l IH]; intros acc H; [reflexivity|]. unfold stores. cbn [fold_left fst snd]. fold (stores l (dset c' p' acc)). rewrite IH by (intro X; apply H; right; exact X). apply dget_dset_other. intros ->. apply H. left. reflexivity.
Qed.
Lemma stores_last c p a : forall b acc, ~ In c (map fst b) -> dget c (stores (a ++ (c, p) :: b) acc) = Some p.
Proof.
  intros b acc H. unfold stores. rewrite fold_left_app. cbn [fold_left fst snd]. fold (stores b (dset c p (fold_left (fun d kv => dset (fst kv) (snd kv) d) a acc))). rewrite stores_keep by exact H. apply dget_dset_same.
Qed.
(** Every key has a last occurrence. *)
Lemma last_split {V} (c : str) (l : list (str * V)) : In c (map fst l) -> exists a v b, l = a ++ (c, v) :: b /\ ~ In c (map fst b).
Proof.
  induction l as [|[c' v'] l IH]; intro H; [destruct H|]. destruct (In_dec (list_eq_dec N.eq_dec) c (map fst l)) as [Hl|Hl].
  - destruct (IH Hl) as (a&v&b&->&Hb). exists ((c', v') :: a), v, b. auto.
  - destruct H as [<-|H]; [|contradiction]. exists [], v', l. auto.
Qed.
Lemma parse_again i r : item_ok i -> (forall d j, In (d, j) r -> delimiter d /\ item_ok j) ->
  parse_prefstr (show_prefs i r) = Ok (map (fun kv => (fst kv, fill_rank (dense_rank (pref_num (snd kv)) (map (fun kv => pref_num (snd kv)) (stores (loop_result (mode_of r) 1 i r) []))) (snd kv))) (stores (loop_result (mode_of r) 1 i r) []), map item_name (items i r)).
Proof.
  intros Hi Hr. pose proof (delims_show r i Hi Hr) as Hds. pose proof (extract_show i r Hi Hr) as Hx.
  destruct (parse_prefstr_total _ _ Hx) as [prefs Ep]. { rewrite map_length. cbn [items length]. rewrite Hds, !map_length. lia. }
  rewrite map_map in Ep. cbn [fst] in Ep. change (map (fun x : item => item_name x) (items i r)) with (map item_name (items i r)) in Ep. rewrite Ep.
  destruct (parse_prefstr_shape _ _ _ Ep) as (cps&prefs0&Ec&_&E0&->). rewrite Hx in Ec. apply ok_inj in Ec. subst cps.
  assert (Hmode : rank_or_rate (show_prefs i r) = (mode_of r, map fst r)). { unfold rank_or_rate. rewrite Hds. f_equal. destruct r as [|[d j] r]; reflexivity. }
  rewrite Hmode in E0. cbn [fst snd] in E0. pose proof (loop_again (mode_of r) r i 1 [] [] (length (items i r))) as L. cbn [app length] in L. rewrite map_length in E0. rewrite L in E0.
  - apply ok_inj in E0. subst prefs0. reflexivity.
  - destruct r as [|[d j] r]; [auto|]. cbn. destruct (d =? 44)%N; discriminate.
  - exact Hi.
  - intros d j H. apply (Hr d j H).
  - cbn [items length]. rewrite map_length. reflexivity.
Qed.
Lemma stores_from l p c acc : dget c (stores l acc) = Some p -> dget c acc = Some p \/ In (c, p) l.
Proof.
  revert acc. induction l as [|[c' p'] l IH]; intros acc H; [left; exact H|]. unfold stores in H. cbn [fold_left fst snd] in H. fold (stores l (dset c' p' acc)) in H. destruct (IH _ H) as [H1|H1]; [|right; right; exact H1].
  destruct (str_eqb_spec c c') as [->|N]; [rewrite dget_dset_same in H1; injection H1 as ->; right; left; reflexivity|]. rewrite dget_dset_other in H1 by exact N. left. exact H1.
Qed.
Lemma dget_map {V W} (f : V -> W) c (d : dict V) : dget c (map (fun kv => (fst kv, f (snd kv))) d) = match dget c d with Some v => Some (f v) | None => None end.
Proof. induction d as [|[k v] d IH]; [reflexivity|]. cbn [map dget fst snd]. destruct (str_eqb c k); [reflexivity|exact IH]. Qed.
Lemma loop_result_at mode r : forall k i a c p b, loop_result mode k i r = a ++ (c, p) :: b ->
  (exists x y z, items i r = x ++ y :: z /\ item_name y = c /\ p_rating p = stored_rating (item_written y) /\ map item_name z = map fst b) /\
  (mode <> MRate -> exists x kk z, ranks_from k i r = x ++ (c, kk) :: z /\ p_rank p = Some kk /\ map fst z = map fst b) /\ (mode = MRate -> p_rank p = None).
Proof.
  induction r as [|[d j] r IH]; intros k i a c p b E.
  - cbn [loop_result] in E. destruct a as [|x a]; [|destruct a; discriminate E]. injection E as <- <- <-. split; [exists [], i, []; repeat split|]. split; [|intros ->; reflexivity]. intro Hm. exists [], k, []. split; [reflexivity|]. split; [destruct mode; [reflexivity|congruence|reflexivity]|reflexivity].
  - cbn [loop_result] in E. change (items i ((d, j) :: r)) with (i :: items j r). cbn [ranks_from]. destruct a as [|x a].
    + injection E as <- <- <-. split; [exists [], i, (items j r); split; [reflexivity|]; split; [reflexivity|]; split; [reflexivity|]; symmetry; exact (loop_result_keys _ _ _ _)|].
      split; [|intros ->; reflexivity]. intro Hm. exists [], k, (ranks_from (if (d =? 62)%N then k + 1 else k) j r). split; [reflexivity|]. split; [destruct mode; [reflexivity|congruence|reflexivity]|]. pose proof (loop_result_ranks mode r Hm (if (d =? 62)%N then k + 1 else k) j) as L. apply (f_equal (map fst)) in L. rewrite !map_map in L. cbn [fst] in L. symmetry. exact L.
    + injection E as _ E. destruct (IH _ _ _ _ _ _ E) as ((x1&y1&z1&G1&G2)&H&K). split; [exists (i :: x1), y1, z1; rewrite G1; split; [reflexivity|exact G2]|]. split; [|exact K]. intro Hm. destruct (H Hm) as (x2&k2&z2&H1&H2). exists ((item_name i, k) :: x2), k2, z2. rewrite H1. split; [reflexivity|exact H2].
Qed.
(** The last place of c. *)
Definition last_at {V} (c : str) (v : V) (l : list (str * V)) : Prop := exists before after, l = before ++ (c, v) :: after /\ ~ In c (map fst after).
Lemma last_unique {V} c (v w : V) l : last_at c v l -> last_at c w l -> v = w.
Proof.
  intros (a&b&->&Hb) (a2&b2&E&Hb2). revert a2 E. induction a as [|x a IH]; intros [|x2 a2] E; cbn [app] in E.
  - injection E as ->. reflexivity.
  - injection E as _ E. exfalso. apply Hb. rewrite E, map_app. apply in_or_app. right. left. reflexivity.
  - injection E as -> E. exfalso. apply Hb2. rewrite <- E, map_app. apply in_or_app. right. left. reflexivity.
  - injection E as _ E. exact (IH _ E).
Qed.
Lemma ranks_keys r : forall k i, map fst (ranks_from k i r) = map item_name (items i r).
Proof. induction r as [|[d j] r IH]; intros k i; [reflexivity|]. change (items i ((d, j) :: r)) with (i :: items j r). cbn [ranks_from map fst]. f_equal. apply IH. Qed.
Lemma ranks_pos r : forall k i c z, In (c, z) (ranks_from k i r) -> k <= z.
Proof. induction r as [|[d j] r IH]; intros k i c z H; cbn [ranks_from] in H; destruct H as [E|H]; try (injection E as _ <-; lia); [destruct H|]. apply IH in H. destruct (d =? 62)%N; lia. Qed.
(** A line that may name a candidate more than once, read by itself.  The last mention of a candidate counts: its rating is what the line has for the candidate, and in a ranking so is
    its rank, which is one more than the number of '>' before it.  In a list of ratings (the first delimiter is a comma) a candidate's rank is one more than the number of
    different higher ratings among those that count. *)
Theorem C33_repeated : forall qty i r, numeral qty -> item_ok i -> (forall d j, In (d, j) r -> delimiter d /\ item_ok j) ->
  let ratings := map (fun x => (item_name x, item_written x)) (i :: map snd r) in
  exists m v, convert_abif_to_jabmod (voteline_text qty i r) false false false = Ok m /\ j_votelines m = [v] /\ py_int qty = Ok (v_qty v) /\ NoDup (map fst (v_prefs v)) /\
    (forall c, In c (map fst (v_prefs v)) <-> In c (map item_name (i :: map snd r))) /\
    (forall c w, last_at c w ratings -> exists p, dget c (v_prefs v) = Some p /\ p_rating p = stored_rating w) /\
    ((forall d j r', r = (d, j) :: r' -> d <> 44%N) -> forall c k, last_at c k (ranks_from 1 i r) <-> rank_on v c = Some k) /\
    ((exists j r', r = (44%N, j) :: r') -> forall c, In c (map fst (v_prefs v)) -> rank_on v c = Some (dense_rank (rating_on v c) (map (rating_on v) (map fst (v_prefs v))))).
Proof.
  intros qty i r Hq Hi Hr ratings. destruct (vote_of_text qty i r Hq Hi Hr) as [Hl Hv]. destruct (py_int_numeral qty Hq) as (n&_&Eq). pose proof (parse_again i r Hi Hr) as Ep.
  rewrite (convert_alone _ _ Hl Hv), Eq. cbn [bind]. rewrite Ep. cbn [bind fst snd]. set (L := loop_result (mode_of r) 1 i r) in *. set (S := stores L []) in *. destruct (parse_prefstr_good _ _ _ Ep) as ((G1&G2)&G3).
  set (nums := map (fun kv : str * pref => pref_num (snd kv)) S) in *. set (fin := fun p => fill_rank (dense_rank (pref_num p) nums) p).
  assert (Hget : forall c, dget c (map (fun kv => (fst kv, fin (snd kv))) S) = match dget c S with Some v => Some (fin v) | None => None end) by (intro c; apply (dget_map fin c S)).
  assert (EL : dkeys L = map item_name (items i r)) by apply loop_result_keys.
  assert (Hlast : forall c, In c (map item_name (i :: map snd r)) -> exists a p b, L = a ++ (c, p) :: b /\ ~ In c (map fst b) /\ dget c S = Some p).
  { intros c Hc. change (i :: map snd r) with (items i r) in Hc. rewrite <- EL in Hc. destruct (last_split c L Hc) as (a&p&b&E&Hb). exists a, p, b. split; [exact E|]. split; [exact Hb|]. unfold S. rewrite E. apply stores_last, Hb. }
  eexists. eexists. split; [reflexivity|]. split; [reflexivity|]. cbn [v_prefs v_qty]. split; [reflexivity|]. change (fun kv : str * pref => (fst kv, fill_rank (dense_rank (pref_num (snd kv)) nums) (snd kv))) with (fun kv : str * pref => (fst kv, fin (snd kv))) in *.
  split; [exact G1|]. split; [exact G3|]. split; [|split].
  - intros c w (bef&aft&Ew&Hw). assert (Hc : In c (map item_name (i :: map snd r))). { unfold ratings in Ew. apply (f_equal (map fst)) in Ew. rewrite map_map in Ew. cbn [fst] in Ew. change (map (fun x : item => item_name x) (i :: map snd r)) with (map item_name (i :: map snd r)) in Ew. rewrite Ew, map_app. apply in_or_app. right. left. reflexivity. }
    destruct (Hlast c Hc) as (a&p&b&E&Hb&Hg). exists (fin p). rewrite Hget, Hg. split; [reflexivity|]. unfold fin. rewrite (proj1 (fill_rank_facts _ p)). destruct (loop_result_at _ _ _ _ _ _ _ _ E) as ((x&y&z&Gx&Gn&Gr&Gz)&_&_). rewrite Gr. f_equal.
    apply (last_unique c (item_written y) w ratings); [|exists bef, aft; split; assumption]. exists (map (fun x => (item_name x, item_written x)) x), (map (fun x => (item_name x, item_written x)) z). unfold ratings. change (i :: map snd r) with (items i r). rewrite Gx, map_app. cbn [map]. rewrite Gn. split; [reflexivity|]. rewrite map_map. cbn [fst]. change (fun x : item => item_name x) with item_name. rewrite Gz. exact Hb.
  - intros Hd c k. assert (Hm : mode_of r <> MRate). { unfold mode_of. destruct r as [|[d j] r']; [discriminate|]. destruct (N.eqb_spec d 44) as [E|E]; [destruct (Hd _ _ _ eq_refl E)|discriminate]. }
    assert (Fw : forall c, In c (map item_name (i :: map snd r)) -> exists k, last_at c k (ranks_from 1 i r) /\ rank_on (Voteline (Z.of_N n) (map (fun kv => (fst kv, fin (snd kv))) S) None (Some (rstrip (show_prefs i r))) None None) c = Some k).
    { intros c' Hc. destruct (Hlast c' Hc) as (a&p&b&E&Hb&Hg). destruct (loop_result_at _ _ _ _ _ _ _ _ E) as (_&H&_). destruct (H Hm) as (x&k'&z&Ek&Epk&Ez). exists k'. split; [exists x, z; split; [exact Ek|rewrite Ez; exact Hb]|].
      unfold rank_on. cbn [v_prefs]. rewrite Hget, Hg. unfold fin. destruct (fill_rank_facts (dense_rank (pref_num p) nums) p) as (_&_&->). assert (Hk : 1 <= k') by (apply (ranks_pos r 1 i c' k'); rewrite Ek; apply in_or_app; right; left; reflexivity). unfold has_rank. rewrite Epk. destruct (Z.eqb_spec k' 0); [lia|reflexivity]. }
    split.
    + intro Hk. assert (Hc : In c (map item_name (i :: map snd r))). { change (i :: map snd r) with (items i r). rewrite <- (ranks_keys r 1 i). destruct Hk as (x&y&E&_). rewrite E, map_app. apply in_or_app. right. left. reflexivity. }
      destruct (Fw c Hc) as (k'&Hk'&R). rewrite (last_unique _ _ _ _ Hk Hk'). exact R.
    + intro R. assert (Hc : In c (map item_name (i :: map snd r))). { apply G3. unfold rank_on in R. cbn [v_prefs] in R. destruct (dget c _) as [p|] eqn:E; [|discriminate R]. apply (in_map fst _ _ (dget_In _ _ _ E)). }
      destruct (Fw c Hc) as (k'&Hk'&R'). assert (k = k') by congruence. subst k'. exact Hk'.
  - intros (j1&r'&->) c Hc. change (mode_of ((44%N, j1) :: r')) with MRate in *. destruct (Hlast c (proj1 (G3 c) Hc)) as (a&p&b&E&Hb&Hg). destruct (loop_result_at _ _ _ _ _ _ _ _ E) as (_&_&H). specialize (H eq_refl).
    assert (Hnum : forall c p, dget c S = Some p -> rating_on (Voteline (Z.of_N n) (map (fun kv => (fst kv, fin (snd kv))) S) None (Some (rstrip (show_prefs i ((44%N, j1) :: r')))) None None) c = pref_num p).
    { intros c' p' Hg'. unfold rating_on. cbn [v_prefs]. rewrite Hget, Hg'. unfold fin. rewrite (proj1 (fill_rank_facts _ p')). reflexivity. }
    unfold rank_on. cbn [v_prefs]. rewrite Hget, Hg. rewrite (Hnum c p Hg). unfold fin. destruct (fill_rank_facts (dense_rank (pref_num p) nums) p) as (_&_&->). unfold has_rank. rewrite H. do 2 f_equal. unfold nums.
    assert (HS : NoDup (map fst S)). { revert G1. unfold dkeys. rewrite map_map. cbn [fst]. auto. }
    rewrite !map_map. cbn [fst]. apply map_ext_in. intros [c' p'] Hin. cbn [fst snd]. symmetry. apply Hnum. apply dget_In_nodup; assumption.
Qed.
Print Assumptions C33_repeated.
(** When some candidate has rank 1: always in a list of ratings, and in a ranking exactly when a candidate named before the first '>' is not named again after it. *)
Theorem C29_first_rank_exact : forall qty i r, numeral qty -> item_ok i -> (forall d j, In (d, j) r -> delimiter d /\ item_ok j) ->
  exists m v, convert_abif_to_jabmod (voteline_text qty i r) false false false = Ok m /\ j_votelines m = [v] /\
    ((exists c, rank_on v c = Some 1) <->
     (exists j r', r = (44%N, j) :: r') \/ exists tops rest, r = tops ++ rest /\ (forall d j, In (d, j) tops -> d <> 62%N) /\ (rest = [] \/ exists j rest', rest = (62%N, j) :: rest') /\
       exists c, In c (map item_name (i :: map snd tops)) /\ ~ In c (map item_name (map snd rest))).
Proof.
  intros qty i r Hq Hi Hr. destruct (C33_repeated qty i r Hq Hi Hr) as (m&v&Em&Ev&_&Hn&Hk&_&HR&HC). exists m, v. split; [exact Em|]. split; [exact Ev|].
  assert (Split : forall r, exists tops rest, r = tops ++ rest /\ (forall d (j : item), In (d, j) tops -> d <> 62%N) /\ (rest = [] \/ exists j rest', rest = (62%N, j) :: rest')).
  { clear. induction r as [|[d j] r IH]; [exists [], []; split; [reflexivity|]; split; [intros d j []|left; reflexivity]|]. destruct (N.eqb_spec d 62) as [->|N].
    - exists [], ((62%N, j) :: r). split; [reflexivity|]. split; [intros d j' []|right; eauto].
    - destruct IH as (tops&rest&->&H1&H2). exists ((d, j) :: tops), rest. split; [reflexivity|]. split; [|exact H2]. intros d' j' [E|H]; [injection E as <- _; exact N|exact (H1 d' j' H)]. }
  assert (Ranks : forall tops rest i, (forall d (j : item), In (d, j) tops -> d <> 62%N) -> (rest = [] \/ exists j rest', rest = (62%N, j) :: rest') -> exists hi, ranks_from 1 i (tops ++ rest) = map (fun x => (item_name x, 1)) (i :: map snd tops) ++ hi /\ map fst hi = map item_name (map snd rest) /\ forall c k, In (c, k) hi -> 2 <= k).
  { clear. induction tops as [|[d j] tops IH]; intros rest i Ht Hr.
    - destruct Hr as [->|(j&rest'&->)]; [exists []; repeat split; intros c k []|]. exists (ranks_from 2 j rest'). split; [reflexivity|]. split; [apply ranks_keys|]. intros c k H. exact (ranks_pos _ _ _ _ _ H).
    - destruct (IH rest j (fun d' j' H => Ht d' j' (or_intror H)) Hr) as (hi&E&H). exists hi. split; [|exact H]. cbn [app ranks_from map snd]. assert (N : (d =? 62)%N = false) by (apply N.eqb_neq, (Ht d j); left; reflexivity). rewrite N, E. reflexivity. }
  assert (Comma : (exists j r', r = (44%N, j) :: r') \/ (forall d j r', r = (d, j) :: r' -> d <> 44%N)).
  { destruct r as [|[d j] r']; [right; intros; discriminate|]. destruct (N.eqb_spec d 44) as [->|N]; [left; eauto|right; intros d' j' r'' E; injection E as <- _ _; exact N]. }
  destruct Comma as [Cm|Cm].
  - split; [auto|]. intros _. specialize (HC Cm). assert (Hne : map (rating_on v) (map fst (v_prefs v)) <> []).
    { intro E. apply map_eq_nil in E. assert (Hx : In (item_name i) (map fst (v_prefs v))) by (apply Hk; left; reflexivity). rewrite E in Hx. destruct Hx. }
    destruct (dense_rank_1 _ Hne) as (z&Hz&Hd). apply in_map_iff in Hz as (c&<-&Hc). exists c. rewrite (HC c Hc). f_equal. exact Hd.
  - specialize (HR Cm). destruct (Split r) as (tops&rest&Er&H1&H2). destruct (Ranks tops rest i H1 H2) as (hi&Eh&Kh&Hh). split.
    + intros (c&Hc). right. exists tops, rest. split; [exact Er|]. split; [exact H1|]. split; [exact H2|]. exists c. apply HR in Hc. rewrite Er, Eh in Hc. destruct Hc as (a&b&E&Hb).
      assert (Hin : In (c, 1) (map (fun x => (item_name x, 1)) (i :: map snd tops) ++ hi)) by (rewrite E; apply in_or_app; right; left; reflexivity). apply in_app_or in Hin as [Hin|Hin]; [|apply Hh in Hin; lia].
      apply in_map_iff in Hin as (x&Ex&Hx). injection Ex as <-. split; [apply in_map, Hx|]. intro Hr'. rewrite <- Kh in Hr'.
      destruct (last_split _ hi Hr') as (a2&k2&b2&E2&Hb2). assert (X : last_at (item_name x) k2 (map (fun x => (item_name x, 1)) (i :: map snd tops) ++ hi)) by (rewrite E2, app_assoc; exists (map (fun x => (item_name x, 1)) (i :: map snd tops) ++ a2), b2; split; [reflexivity|exact Hb2]).
      assert (Y : last_at (item_name x) 1 (map (fun x => (item_name x, 1)) (i :: map snd tops) ++ hi)) by (exists a, b; split; [exact E|exact Hb]). rewrite <- (last_unique _ _ _ _ Y X) in E2. assert (Z : In (item_name x, 1) hi) by (rewrite E2; apply in_or_app; right; left; reflexivity). apply Hh in Z. lia.
    + intros [(j&r'&E)|(tops'&rest'&E'&H1'&H2'&c&Hc&Hnc)]; [destruct (Cm _ _ _ E eq_refl)|]. destruct (Ranks tops' rest' i H1' H2') as (hi'&Eh'&Kh'&_). exists c. apply HR. rewrite E', Eh'.
      rewrite <- Kh' in Hnc. assert (K : In c (map fst (map (fun x : item => (item_name x, 1)) (i :: map snd tops')))) by (rewrite map_map; exact Hc). destruct (last_split c _ K) as (a&k&b&Eb&Hb).
      assert (k = 1). { assert (Z : In (c, k) (map (fun x : item => (item_name x, 1)) (i :: map snd tops'))) by (rewrite Eb; apply in_or_app; right; left; reflexivity). apply in_map_iff in Z as (x&Ex&_). congruence. } subst k.
      rewrite Eb. exists a, (b ++ hi'). rewrite <- app_assoc. split; [reflexivity|]. rewrite map_app. intro X. apply in_app_or in X as [X|X]; contradiction.
Qed.
Print Assumptions C29_first_rank_exact.
Definition bare (n : string) : item := ([], Bare (u n) None, []).
(** A>B=A: nobody is first.  A=B>A: B is. *)
Example C29_exact_sample : (let r := [(62%N, bare "B"); (61%N, bare "A")] in item_ok (bare "A") /\ (forall d j, In (d, j) r -> delimiter d /\ item_ok j) /\
  exists m v, convert_abif_to_jabmod (voteline_text (u "3") (bare "A") r) false false false = Ok m /\ j_votelines m = [v] /\ map (fun kv => (fst kv, p_rank (snd kv))) (v_prefs v) = [(u "A", Some 2); (u "B", Some 2)]) /\
  (let r := [(61%N, bare "B"); (62%N, bare "A")] in exists m v, convert_abif_to_jabmod (voteline_text (u "3") (bare "A") r) false false false = Ok m /\ j_votelines m = [v] /\ map (fun kv => (fst kv, p_rank (snd kv))) (v_prefs v) = [(u "A", Some 2); (u "B", Some 1)]).
Proof.
  assert (P : forall n, plain_name (u n) -> ParserSpec.has 34%N (u n) = false -> ParserSpec.has 47%N (u n) = false -> item_ok (bare n)).
  { intros n H1 H2 H3. repeat split; try (intros c []); try assumption; try apply H1. all: discriminate. }
  assert (PA : item_ok (bare "A")) by (apply P; [repeat split; discriminate|reflexivity|reflexivity]). assert (PB : item_ok (bare "B")) by (apply P; [repeat split; discriminate|reflexivity|reflexivity]).
  cbv zeta. split; [split; [exact PA|]; split|].
  - intros d j [E|[E|[]]]; injection E as <- <-; (split; [unfold delimiter; auto|assumption]).
  - eexists. eexists. split; [vm_compute; reflexivity|]. split; reflexivity.
  - eexists. eexists. split; [vm_compute; reflexivity|]. split; reflexivity.
Qed.
