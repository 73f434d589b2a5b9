(** * Properties C42-C43: the .nameq format (abiflib/nameq.py) *)

From Coq Require Import Lia.
From Verif Require Import PyBase PyFacts Jabmod PairwiseModel Spec PairwiseFacts ParserSpec ParserFacts TextFacts UrlText UrlFacts NameqModel NameqFacts.
Local Open Scope Z_scope.

(** A model with awkward candidate names: accents, a percent sign, an ampersand, a plus sign, an equals
    sign, blanks, an emoji; and a weak, a truncated and an empty ballot. *)
Definition N1 : str := u "Zo" ++ [235%N]. Definition N2 := u "100% A&B". Definition N3 := u "x=y+z #1".
Definition N4 : str := [128512%N; 32%N].
Definition exotic : jabmod := Jabmod [] [(N1, N1); (N2, N2); (N3, N3); (N4, N4)]
  [ vl 2 [(N1, ranked 1); (N2, ranked 2); (N3, ranked 2)]; vl 0 [(N3, ranked 1)];
    vl 1 [(N4, ranked (-7))]; vl 1 [] ].

(** What a voteline says: who has which rank, in the order of the line ([ballot] of NameqFacts). *)

(** ** C42 *)
(** Writing succeeds whenever names are proper Unicode text and all listed candidates are ranked. *)
Theorem C42_written : forall m,
  (forall v c p, In v (j_votelines m) -> In (c, p) (v_prefs v) ->
     forallb scalar c = true /\ exists r, p_rank p = Some r) ->
  exists text, convert_jabmod_to_nameq m = Ok text.
Proof.
  intros m H. unfold convert_jabmod_to_nameq.
  assert (G : forall ls, incl ls (j_votelines m) ->
    exists ts, mapM (fun v => if v_qty v >? 0 then bind (nameq_text v) (fun t => Ok (concat (repeat t (Z.to_nat (v_qty v))))) else Ok []) ls = Ok ts).
  { induction ls as [|v ls IH]; intro Hi; cbn [mapM]; [eexists; reflexivity|].
    destruct (IH (fun x Hx => Hi x (or_intror Hx))) as (ts&Ht).
    assert (exists t, nameq_text v = Ok t) as (t&Et).
    { unfold nameq_text. specialize (H v) with (1 := Hi v (or_introl eq_refl)). clear - H.
      assert (K : exists ps, mapM (fun kv => bind (quote_plus (fst kv)) (fun pk => bind (of_option KeyError (p_rank (snd kv))) (fun r => Ok (pk ++ [61%N] ++ z2s r)))) (v_prefs v) = Ok ps).
      { remember (v_prefs v) as l eqn:El. clear El. induction l as [|[k p] l IH]; cbn [mapM]; [eexists; reflexivity|].
        destruct (H k p (or_introl eq_refl)) as (Hs&r&Hr). destruct (quote_plus_ok k Hs) as (q&Eq&_).
        cbn [fst snd]. rewrite Eq, Hr. cbn [bind of_option]. destruct IH as (ps&->); [intros c p' Hin; apply (H c p'); right; exact Hin|].
        eexists; reflexivity. }
      destruct K as (ps&->). eexists; reflexivity. }
    rewrite Et, Ht. destruct (v_qty v >? 0); cbn [bind]; eexists; reflexivity. }
  destruct (G _ (incl_refl _)) as (ts&->). eexists; reflexivity.
Qed.
Print Assumptions C42_written.

Lemma ballot_fst v : map fst (ballot v) = map fst (v_prefs v).
Proof. unfold ballot. rewrite map_map. reflexivity. Qed.

(** Reading what was written gives one ballot per unit of quantity, in order, each with exactly the same
    candidates, in the same order, with the same ranks.  The candidate table then has exactly the
    candidates mentioned, each under its own token. *)
Theorem C42_roundtrip : forall m text,
  (forall v, In v (j_votelines m) -> NoDup (map fst (v_prefs v))) ->
  convert_jabmod_to_nameq m = Ok text ->
  exists m', convert_nameq_to_jabmod text = Ok m' /\
    map ballot (j_votelines m') = flat_map (fun v => repeat (ballot v) (Z.to_nat (v_qty v))) (j_votelines m) /\
    (forall v, In v (j_votelines m') -> v_qty v = 1) /\
    NoDup (cands m') /\ (forall k n, In (k, n) (j_candidates m') -> n = k) /\
    (forall c, In c (cands m') <-> exists v, In v (j_votelines m) /\ 0 < v_qty v /\ In c (map fst (v_prefs v))).
Proof.
  intros m text Hn H. unfold convert_jabmod_to_nameq in H. apply bind_ok in H as (ts&Hm&Ht). apply ok_inj in Ht. subst text.
  destruct (nameq_lines _ _ Hn Hm) as (lines&vs&E1&E2&E3&E4&E5).
  unfold convert_nameq_to_jabmod. rewrite E1, (splitlines_unlines _ E2), E3. cbn [bind]. eexists. split; [reflexivity|]. cbn [j_votelines j_candidates].
  fold (nameq_cands vs). destruct (nameq_cands_ok vs) as (C1&C2&C3).
  split; [exact E5|]. split; [intros v Hv; apply E4, Hv|]. split; [exact C1|]. split; [exact C2|].
  intro c. unfold cands. cbn [j_candidates]. rewrite (C3 c). split.
  - intros (v&Hv&Hc). apply (in_map ballot) in Hv. rewrite E5 in Hv. apply in_flat_map in Hv as (w&Hw&Hb). exists w.
    split; [exact Hw|]. destruct (Z.to_nat (v_qty w)) as [|n] eqn:Eq; [destruct Hb|]. split; [lia|]. apply repeat_spec in Hb.
    apply (f_equal (map fst)) in Hb. rewrite !ballot_fst in Hb. rewrite <- Hb. exact Hc.
  - intros (w&Hw&Hq&Hc). assert (Hb : In (ballot w) (map ballot vs)).
    { rewrite E5. apply in_flat_map. exists w. split; [exact Hw|]. destruct (Z.to_nat (v_qty w)) as [|n] eqn:Eq; [lia|]. left. reflexivity. }
    apply in_map_iff in Hb as (v&Hb&Hv). exists v. split; [exact Hv|].
    apply (f_equal (map fst)) in Hb. rewrite !ballot_fst in Hb. rewrite Hb. exact Hc.
Qed.
Print Assumptions C42_roundtrip.

Example C42_nonvacuous : exists text m', convert_jabmod_to_nameq exotic = Ok text /\
  convert_nameq_to_jabmod text = Ok m' /\
  map ballot (j_votelines m') =
    [ [(N1, Some 1); (N2, Some 2); (N3, Some 2)]; [(N1, Some 1); (N2, Some 2); (N3, Some 2)]; [(N4, Some (-7))]; [] ] /\
  cands m' = [N1; N2; N3; N4].
Proof. eexists. eexists. split; [vm_compute; reflexivity|]. split; [vm_compute; reflexivity|]. split; reflexivity. Qed.

(** Hence the same pairwise tally between any two candidates mentioned. *)
Lemma dget_map {V W} (f : V -> W) k d : dget k (map (fun kv => (fst kv, f (snd kv))) d) = option_map f (dget k d).
Proof. induction d as [|[k' v] d IH]; [reflexivity|]. cbn [map dget fst snd]. destruct (str_eqb k k'); [reflexivity|exact IH]. Qed.
Definition rank_in (b : list (str * option Z)) (c : str) : option Z := match dget c b with Some r => r | None => None end.
Lemma rank_on_ballot v c : rank_on v c = rank_in (ballot v) c.
Proof. unfold rank_on, rank_in, ballot. rewrite dget_map. destruct (dget c (v_prefs v)); reflexivity. Qed.
Definition prefers_in (b : list (str * option Z)) (x y : str) : bool :=
  match rank_in b x, rank_in b y with Some i, Some j => i <? j | Some _, None => true | None, _ => false end.
Lemma prefers_ballot v a b : prefers v a b = prefers_in (ballot v) a b.
Proof. unfold prefers, prefers_in. rewrite !rank_on_ballot. reflexivity. Qed.
Lemma zsum_repeat n z : zsum (repeat z n) = Z.of_nat n * z.
Proof. induction n as [|n IH]; [reflexivity|]. cbn [repeat zsum]. rewrite IH. lia. Qed.
Lemma map_repeat {A B} (f : A -> B) x n : map f (repeat x n) = repeat (f x) n.
Proof. induction n as [|n IH]; [reflexivity|]. cbn. rewrite IH. reflexivity. Qed.

Lemma votes_unit ls vs a b : (forall v, In v ls -> 0 <= v_qty v) -> (forall v, In v vs -> v_qty v = 1) ->
  map ballot vs = flat_map (fun v => repeat (ballot v) (Z.to_nat (v_qty v))) ls ->
  ballots_where (fun l => prefers l a b) vs = ballots_where (fun l => prefers l a b) ls.
Proof.
  intros Hq Hu E. unfold ballots_where.
  transitivity (zsum (map (fun x => if prefers_in x a b then 1 else 0) (map ballot vs))).
  - rewrite map_map. f_equal. apply map_ext_in. intros v Hv. rewrite prefers_ballot, (Hu v Hv). reflexivity.
  - rewrite E. clear - Hq. induction ls as [|v ls IH]; [reflexivity|]. cbn [flat_map map zsum]. rewrite map_app, zsum_app, IH by (intros w Hw; apply Hq; right; exact Hw).
    f_equal. rewrite map_repeat, zsum_repeat, prefers_ballot. specialize (Hq v (or_introl eq_refl)). destruct (prefers_in (ballot v) a b); lia.
Qed.

Theorem C42_same_tally : forall m text m' pm pm',
  NoDup (cands m) ->
  (forall v, In v (j_votelines m) -> line_ok (cands m) v /\ line_ranked maxsize v = true /\ 0 <= v_qty v) ->
  convert_jabmod_to_nameq m = Ok text -> convert_nameq_to_jabmod text = Ok m' ->
  pairwise_count_dict m = Ok pm -> pairwise_count_dict m' = Ok pm' ->
  incl (cands m') (cands m) /\
  forall a b, In a (cands m') -> In b (cands m') -> mat_get a b pm' = mat_get a b pm.
Proof.
  intros m text m' pm pm' Hnd Hv Ht Hm' E1 E2.
  destruct (C42_roundtrip m text (fun v Hin => proj1 (proj1 (Hv v Hin))) Ht) as (m2&Em&Eb&Eq&Enc&_&Ec). rewrite Hm' in Em. apply ok_inj in Em. subst m2.
  assert (Hincl : incl (cands m') (cands m)).
  { intros c Hc. apply Ec in Hc as (v&Hin&_&Hc). exact (proj2 (proj1 (Hv v Hin)) c Hc). }
  split; [exact Hincl|]. intros a b Ha Hb.
  assert (Hr : forallb (line_ranked maxsize) (j_votelines m) = true) by (apply forallb_forall; intros v Hin; apply (Hv v Hin)).
  assert (Hr' : forallb (line_ranked maxsize) (j_votelines m') = true).
  { apply forallb_forall. intros v Hin. apply (in_map ballot) in Hin. rewrite Eb in Hin. apply in_flat_map in Hin as (w&Hw&Hb').
    apply repeat_spec in Hb'. destruct (Hv w Hw) as (_&Hw'&_). unfold line_ranked in *.
    assert (G : forall v, forallb (fun kv => match p_rank (snd kv) with Some r => r <? maxsize | None => false end) (v_prefs v) =
                forallb (fun kv : str * option Z => match snd kv with Some r => r <? maxsize | None => false end) (ballot v)).
    { intro x. unfold ballot. induction (v_prefs x) as [|[k p] l IH]; [reflexivity|]. cbn [forallb map snd]. rewrite IH. reflexivity. }
    rewrite G in *. rewrite Hb'. exact Hw'. }
  rewrite (pairwise_tally m Hnd Hr) in E1. rewrite (pairwise_tally m' Enc Hr') in E2. apply ok_inj in E1, E2. subst pm pm'.
  rewrite !mat_get_matrix by auto. destruct (str_eqb a b); [reflexivity|]. do 2 f_equal. unfold votes_over.
  apply votes_unit; [intros v Hin; apply (Hv v Hin)|exact Eq|exact Eb].
Qed.
Print Assumptions C42_same_tally.

(** ** C43 *)
(** Any text that is read: one voteline of quantity 1 per line, counted; every candidate of a voteline is in
    the table, under its own name; the only possible failure is a rank that is not an integer. *)
Lemma parse_qs_ok s : NoDup (dkeys (parse_qs s)) /\ forall k vs, In (k, vs) (parse_qs s) -> vs <> [].
Proof.
  unfold parse_qs. generalize (parse_qsl s) as l. intro l.
  assert (G : forall d : dict (list str), NoDup (dkeys d) -> (forall k vs, In (k, vs) d -> vs <> []) ->
    let d' := fold_left (fun d (nv : str * str) => match dget (fst nv) d with
                         | Some vs => dset (fst nv) (vs ++ [snd nv]) d
                         | None => dset (fst nv) [snd nv] d
                         end) l d in NoDup (dkeys d') /\ forall k vs, In (k, vs) d' -> vs <> []).
  { induction l as [|[k v] l IH]; intros d Hn Hv; cbn [fold_left fst snd]; [cbn; auto|].
    assert (K : forall vs, vs <> [] -> forall k' vs', In (k', vs') (dset k vs d) -> vs' <> []).
    { intros vs Hvs k' vs' Hin. apply (dget_In_nodup _ _ _ (NoDup_dset k vs d Hn)) in Hin. rewrite dget_dset in Hin.
      destruct (str_eqb k' k); [apply some_inj in Hin; congruence|]. apply (Hv k'). apply dget_In, Hin. }
    destruct (dget k d); (apply IH; [apply NoDup_dset; exact Hn|]); apply K; [destruct l0|]; discriminate. }
  apply (G [] (NoDup_nil _)). intros ? ? [].
Qed.

Lemma nameq_line_shape s v : nameq_line s = Ok v -> v_qty v = 1 /\ NoDup (map fst (v_prefs v)) /\
  (forall c p, In (c, p) (v_prefs v) -> exists r, p = ranked r) /\ map fst (v_prefs v) = map fst (parse_qs (strip s)).
Proof.
  unfold nameq_line. intro H. apply bind_ok in H as (prefs&Hf&Hv). apply ok_inj in Hv. subst v. cbn [v_qty v_prefs vl].
  destruct (parse_qs_ok (strip s)) as [Hn _]. remember (parse_qs (strip s)) as l eqn:El. clear El.
  assert (G : forall d prefs, foldM (fun d (kv : str * list str) => bind (match snd kv with v0 :: _ => py_int v0 | [] => Err IndexError end) (fun r => Ok (dset (fst kv) (ranked r) d))) l d = Ok prefs ->
    NoDup (dkeys d ++ dkeys l) -> (forall c p, In (c, p) d -> exists r, p = ranked r) ->
    dkeys prefs = dkeys d ++ dkeys l /\ (forall c p, In (c, p) prefs -> exists r, p = ranked r)).
  { clear Hf prefs Hn. induction l as [|[k vs] l IH]; intros d prefs Hf Hn Hd; cbn [foldM] in Hf.
    - apply ok_inj in Hf. subst. cbn. rewrite app_nil_r. auto.
    - cbn [fst snd] in Hf. apply bind_ok in Hf as (d1&H1&Hf). apply bind_ok in H1 as (r&Hr&H1). apply ok_inj in H1. subst d1.
      cbn [dkeys map fst] in Hn. pose proof (NoDup_remove_2 _ _ _ Hn) as Hk.
      rewrite dkeys_dset_nIn in Hf by (intro Hin; apply Hk; apply in_or_app; left; exact Hin).
      destruct (IH _ _ Hf) as (I1&I2).
      + unfold dkeys. rewrite map_app, <- app_assoc. exact Hn.
      + intros c p Hin. apply in_app_or in Hin as [Hin|[E|[]]]; [exact (Hd c p Hin)|]. injection E as <- <-. exists r. reflexivity.
      + split; [|exact I2]. rewrite I1. unfold dkeys. rewrite map_app, <- app_assoc. reflexivity. }
  destruct (G [] prefs Hf) as (G1&G2); [exact Hn|intros ? ? []|]. unfold dkeys in *. cbn [map app] in G1. rewrite G1.
  split; [reflexivity|]. split; [exact Hn|]. split; [exact G2|reflexivity].
Qed.

Theorem C43_every_line_counted : forall text m, convert_nameq_to_jabmod text = Ok m ->
  length (j_votelines m) = length (splitlines text) /\
  dget k_ballotcount (j_metadata m) = Some (JInt (Z.of_nat (length (splitlines text)))) /\
  total_ballots m = Z.of_nat (length (splitlines text)) /\
  NoDup (cands m) /\ (forall k n, In (k, n) (j_candidates m) -> n = k) /\
  (forall v, In v (j_votelines m) -> v_qty v = 1 /\ line_ok (cands m) v /\ (forall c, lists v c = true -> exists r, rank_on v c = Some r)).
Proof.
  intros text m H. unfold convert_nameq_to_jabmod in H. apply bind_ok in H as (vs&Hm&H). apply ok_inj in H. subst m. cbn [j_votelines j_metadata j_candidates].
  fold (nameq_cands vs). destruct (nameq_cands_ok vs) as (C1&C2&C3). pose proof (mapM_inv _ _ _ Hm) as F.
  assert (Hlen : length vs = length (splitlines text)) by (clear - F; induction F; cbn; congruence).
  assert (Hsh : forall v, In v vs -> exists s, nameq_line s = Ok v).
  { clear - F. induction F as [|s v ls vs Hs _ IH]; intros w []; [subst; eauto|auto]. }
  rewrite <- Hlen. split; [reflexivity|]. split; [reflexivity|]. split.
  - unfold total_ballots. cbn [j_votelines]. clear - Hsh. induction vs as [|v vs IH]; [reflexivity|]. cbn [map zsum length].
    rewrite IH by (intros w Hw; apply Hsh; right; exact Hw). destruct (Hsh v (or_introl eq_refl)) as (s&Hs). destruct (nameq_line_shape _ _ Hs) as (->&_). lia.
  - split; [exact C1|]. split; [exact C2|]. intros v Hv. destruct (Hsh v Hv) as (s&Hs). destruct (nameq_line_shape _ _ Hs) as (Q1&Q2&Q3&_).
    split; [exact Q1|]. split; [split; [exact Q2|]|].
    + intros c Hc. apply C3. exists v. split; [exact Hv|exact Hc].
    + intros c Hc. unfold lists, rank_on in *. destruct (dget c (v_prefs v)) as [p|] eqn:Ed; [|discriminate].
      apply dget_In in Ed. destruct (Q3 c p Ed) as (r&->). exists r. reflexivity.
Qed.
Print Assumptions C43_every_line_counted.
(** Each voteline keeps the line it was read from, without the blanks around it, and nothing else beside quantity and ranks. *)
Theorem C43_kept : forall text m, convert_nameq_to_jabmod text = Ok m ->
  map v_nameq (j_votelines m) = map (fun line => Some (strip line)) (splitlines text) /\
  forall v, In v (j_votelines m) -> v_comment v = None /\ v_prefstr v = None /\ v_voterid v = None /\ forall c p, In (c, p) (v_prefs v) -> p_rating p = None /\ p_nextdelim p = None.
Proof.
  intros text m H. unfold convert_nameq_to_jabmod in H. apply bind_ok in H as (vs&Hm&H). apply ok_inj in H. subst m. cbn [j_votelines].
  pose proof (mapM_inv _ _ _ Hm) as F. clear Hm.
  assert (K : forall s v, nameq_line s = Ok v -> v_nameq v = Some (strip s) /\ v_comment v = None /\ v_prefstr v = None /\ v_voterid v = None).
  { intros s v E. unfold nameq_line in E. apply bind_ok in E as (prefs&_&E). apply ok_inj in E. subst v. auto. }
  split.
  - induction F as [|s v ls vs Hs _ IH]; [reflexivity|]. cbn [map]. rewrite IH. destruct (K s v Hs) as (->&_). reflexivity.
  - intros v Hv. assert (Hs : exists s, nameq_line s = Ok v) by (clear - F Hv; induction F as [|s w ls ws Hs _ IH]; [destruct Hv|destruct Hv as [-> | Hv]; [eauto|exact (IH Hv)]]).
    destruct Hs as (s&Hs). destruct (K s v Hs) as (_&K1&K2&K3). destruct (nameq_line_shape s v Hs) as (_&_&Q&_). repeat split; try assumption; destruct (Q c p H) as (r&->); reflexivity.
Qed.
Print Assumptions C43_kept.
Example C43_kept_nonvacuous : exists m, convert_nameq_to_jabmod (u " A=1&B=2 " ++ [10%N] ++ u "B%20C=1") = Ok m /\
  map v_nameq (j_votelines m) = [Some (u "A=1&B=2"); Some (u "B%20C=1")].
Proof. eexists. split; vm_compute; reflexivity. Qed.

Lemma py_int_err s e : py_int s = Err e -> e = ValueError.
Proof.
  unfold py_int.
  assert (G : forall A (o : option A), of_option ValueError o = Err e -> e = ValueError) by (intros A [a|]; cbn; congruence).
  destruct (strip s) as [|c r]; [apply G|]. 
  repeat first [apply G | match goal with |- match ?c with _ => _ end = _ -> _ => destruct c end].
Qed.
Theorem C43_only_bad_ranks_fail : forall text e, convert_nameq_to_jabmod text = Err e ->
  e = ValueError /\ exists line name value more, In line (splitlines text) /\
    dget name (parse_qs (strip line)) = Some (value :: more) /\ py_int value = Err ValueError.
Proof.
  intros text e H. unfold convert_nameq_to_jabmod in H.
  assert (G : exists line, In line (splitlines text) /\ nameq_line line = Err e).
  { destruct (mapM nameq_line (splitlines text)) as [vs|e'] eqn:Em; [discriminate|]. cbn in H. injection H as ->.
    clear - Em. induction (splitlines text) as [|l ls IH]; cbn [mapM] in Em; [discriminate|].
    destruct (nameq_line l) as [v|e'] eqn:El; cbn [bind] in Em.
    - destruct (mapM nameq_line ls) as [vs|e'] eqn:Em'; cbn [bind] in Em; [discriminate|]. injection Em as ->. destruct (IH eq_refl) as (l'&Hl&Hl'). exists l'. split; [right; exact Hl|exact Hl'].
    - injection Em as ->. exists l. split; [left; reflexivity|exact El]. }
  destruct G as (line&Hl&Hline). unfold nameq_line in Hline. destruct (parse_qs_ok (strip line)) as [Hn Hv].
  assert (K : exists k vs, In (k, vs) (parse_qs (strip line)) /\ match vs with v0 :: _ => py_int v0 | [] => Err IndexError end = Err e).
  { match type of Hline with bind ?x _ = _ => destruct x as [d|e'] eqn:Ef end; [discriminate|]. cbn in Hline. injection Hline as ->.
    clear - Ef. revert Ef. generalize ([] : dict pref) as d. induction (parse_qs (strip line)) as [|[k vs] l IH]; intros d Ef; cbn [foldM] in Ef; [discriminate|].
    cbn [fst snd] in Ef. destruct (match vs with v0 :: _ => py_int v0 | [] => Err IndexError end) as [r|e'] eqn:Er; cbn [bind] in Ef.
    - destruct (IH _ Ef) as (k'&vs'&Hin&Hx). exists k', vs'. split; [right; exact Hin|exact Hx].
    - injection Ef as ->. exists k, vs. split; [left; reflexivity|exact Er]. }
  destruct K as (k&vs&Hin&Hx). destruct vs as [|v0 vs]; [destruct (Hv _ _ Hin eq_refl)|]. pose proof (py_int_err _ _ Hx) as ->.
  split; [reflexivity|]. exists line, k, v0, vs. split; [exact Hl|]. split; [apply dget_In_nodup; assumption|exact Hx].
Qed.
Print Assumptions C43_only_bad_ranks_fail.

Example C43_nonvacuous :
  (exists m, convert_nameq_to_jabmod (u "A=1&B=2&A=9" ++ [10%N] ++ u " C+D=3&x&y= " ++ [10%N; 10%N]) = Ok m /\
     map ballot (j_votelines m) = [ [(u "A", Some 1); (u "B", Some 2)]; [(u "C D", Some 3)]; [] ] /\ cands m = [u "A"; u "B"; u "C D"]) /\
  convert_nameq_to_jabmod (u "A=first") = Err ValueError.
Proof. split; [eexists; split; [vm_compute; reflexivity|split; reflexivity]|vm_compute; reflexivity]. Qed.
