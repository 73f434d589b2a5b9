(** * Properties C44, C45: consolidation of votelines, csv output (abiflib/core.py) *)

From Coq Require Import Lia Permutation.
From Verif Require Import PyBase PyFacts Jabmod Spec TextFacts PairwiseModel PairwiseFacts UrlText JsonText JsonFacts WriterModel ConsolidateFacts CsvFacts PropsPairwise.
Local Open Scope Z_scope.

(** ** C44 *)
Definition clean (m : jabmod) : Prop := forall v, In v (j_votelines m) -> clean_line v.

(** Exactly: one line per different set of preferences, in order of first appearance, with the sum of the
    quantities of the lines having these preferences, and nothing else (comment, prefstr and voterid go). *)
Theorem C44_exact : forall m, clean m ->
  consolidate m = Jabmod (j_metadata m) (j_candidates m)
    (map (fun v => vl (ballots_where (fun w => same_line v w) (j_votelines m)) (v_prefs v)) (first_of_each (j_votelines m))).
Proof. intros m H. rewrite <- consolidate_eq by exact H. reflexivity. Qed.
Print Assumptions C44_exact.

(** What [same_line] and [first_of_each] mean. *)
Theorem C44_same_line : forall v w, same_line v w = true <-> forall c, dget c (v_prefs v) = dget c (v_prefs w).
Proof. intros v w. apply same_prefsb_ok. Qed.
Print Assumptions C44_same_line.

Lemma sl_dget v w : same_line v w = true -> forall c, dget c (v_prefs v) = dget c (v_prefs w).
Proof. apply C44_same_line. Qed.
Lemma dget_sl v w : (forall c, dget c (v_prefs v) = dget c (v_prefs w)) -> same_line v w = true.
Proof. apply C44_same_line. Qed.
Ltac sl H := let X := fresh in pose proof (sl_dget _ _ H) as X; clear H; rename X into H.

Lemma same_line_sym v w : same_line v w = same_line w v.
Proof.
  destruct (same_line v w) eqn:E1, (same_line w v) eqn:E2; auto; exfalso.
  - sl E1. assert (X : same_line w v = true) by (apply dget_sl; intro c; symmetry; apply E1). congruence.
  - sl E2. assert (X : same_line v w = true) by (apply dget_sl; intro c; symmetry; apply E2). congruence.
Qed.
Lemma same_line_trans v w x : same_line v w = true -> same_line v x = same_line w x.
Proof.
  intro H. sl H. destruct (same_line v x) eqn:E1, (same_line w x) eqn:E2; auto; exfalso.
  - sl E1. assert (X : same_line w x = true) by (apply dget_sl; intro c; rewrite <- E1; symmetry; apply H). congruence.
  - sl E2. assert (X : same_line v x = true) by (apply dget_sl; intro c; rewrite <- E2; apply H). congruence.
Qed.
Lemma same_line_refl v : same_line v v = true.
Proof. apply dget_sl. reflexivity. Qed.

Lemma foe_incl ls : incl (first_of_each ls) ls.
Proof. induction ls as [|v ls IH]; [intros ? []|]. cbn [first_of_each]. intros x [->|Hx]; [left; reflexivity|]. apply filter_In in Hx as [Hx _]. right. apply IH, Hx. Qed.

(** Different lines of the result differ in their preferences, and every line of the input has the
    preferences of one of them. *)
Theorem C44_distinct : forall m, clean m ->
  ForallOrdPairs (fun v w => exists c, dget c (v_prefs v) <> dget c (v_prefs w)) (j_votelines (consolidate m)) /\
  forall v, In v (j_votelines m) -> exists w, In w (j_votelines (consolidate m)) /\ forall c, dget c (v_prefs v) = dget c (v_prefs w).
Proof.
  intros m H. rewrite C44_exact by exact H. cbn [j_votelines]. split.
  - set (q := fun v => ballots_where (fun w => same_line v w) (j_votelines m)).
    change (ForallOrdPairs (fun v w => exists c, dget c (v_prefs v) <> dget c (v_prefs w)) (map (fun v => vl (q v) (v_prefs v)) (first_of_each (j_votelines m)))).
    clearbody q. clear H. induction (j_votelines m) as [|v ls IH]; [constructor|].
    cbn [first_of_each map]. constructor.
    + apply Forall_forall. intros w Hw. apply in_map_iff in Hw as (x&<-&Hx). apply filter_In in Hx as [_ Hx]. cbn [v_prefs vl].
      assert (E : same_prefsb (v_prefs v) (v_prefs x) = false) by (unfold same_line in Hx; destruct (same_prefsb (v_prefs v) (v_prefs x)); [discriminate|reflexivity]).
      unfold same_prefsb in E. assert (N : exists c, In c (dkeys (v_prefs v) ++ dkeys (v_prefs x)) /\ opt_eqb pref_eqb (dget c (v_prefs v)) (dget c (v_prefs x)) = false).
      { revert E. generalize (dkeys (v_prefs v) ++ dkeys (v_prefs x)) as l. induction l as [|c l IHl]; [discriminate|]. cbn [forallb]. destruct (opt_eqb pref_eqb (dget c (v_prefs v)) (dget c (v_prefs x))) eqn:Ec.
        - intro E. destruct (IHl E) as (c'&Hc&Ec'). exists c'. split; [right; exact Hc|exact Ec'].
        - intros _. exists c. split; [left; reflexivity|exact Ec]. }
      destruct N as (c&_&Ec). exists c. intro E'. apply (opt_eqb_eq _ pref_eqb_eq) in E'. congruence.
    + clear - IH. revert IH. generalize (first_of_each ls) as l. induction l as [|x l IHl]; intro H; [constructor|]. cbn [map] in H. inversion H; subst. cbn [filter].
      destruct (negb (same_line v x)); [|apply IHl; assumption]. cbn [map]. constructor; [|apply IHl; assumption].
      apply Forall_forall. intros w Hw. apply in_map_iff in Hw as (y&<-&Hy). apply filter_In in Hy as [Hy _].
      rewrite Forall_forall in H2. apply H2. apply in_map_iff. exists y. auto.
  - intros v Hv. assert (X : exists w, In w (first_of_each (j_votelines m)) /\ same_line v w = true).
    { clear H. induction (j_votelines m) as [|x ls IH]; [destruct Hv|]. cbn [first_of_each]. destruct (same_line v x) eqn:E.
      - exists x. split; [left; reflexivity|exact E].
      - destruct Hv as [->|Hv]; [rewrite same_line_refl in E; discriminate|]. destruct (IH Hv) as (w&Hw&Ew). exists w. split; [right|exact Ew].
        apply filter_In. split; [exact Hw|]. rewrite <- (same_line_sym w x), <- (same_line_trans v w x Ew), E. reflexivity. }
    destruct X as (w&Hw&E). eexists. split; [apply in_map_iff; exists w; split; [reflexivity|exact Hw]|]. cbn [v_prefs vl]. apply sl_dget, E.
Qed.
Print Assumptions C44_distinct.

Lemma bw_foe ls : forall P : voteline -> bool, (forall v w, same_line v w = true -> P v = P w) ->
  zsum (map (fun v => if P v then ballots_where (fun w => same_line v w) ls else 0) (first_of_each ls)) = ballots_where P ls.
Proof.
  induction ls as [|v ls IH]; intros P HP; [reflexivity|]. cbn [first_of_each map zsum].
  assert (E1 : forall x, ballots_where (fun w => same_line x w) (v :: ls) = (if same_line x v then v_qty v else 0) + ballots_where (fun w => same_line x w) ls) by reflexivity.
  rewrite E1, same_line_refl.
  assert (E2 : zsum (map (fun x => if P x then ballots_where (fun w => same_line x w) (v :: ls) else 0) (filter (fun w => negb (same_line v w)) (first_of_each ls)))
             = zsum (map (fun x => if P x && negb (same_line v x) then ballots_where (fun w => same_line x w) ls else 0) (first_of_each ls))).
  { clear - E1. generalize (first_of_each ls) as l. induction l as [|x l IHl]; [reflexivity|]. cbn [filter map zsum]. destruct (same_line v x) eqn:Ex; cbn [negb].
    - rewrite andb_false_r. exact IHl.
    - cbn [map zsum]. rewrite IHl, andb_true_r. f_equal. destruct (P x); [|reflexivity]. rewrite E1, same_line_sym, Ex. reflexivity. }
  rewrite E2, (IH (fun x => P x && negb (same_line v x))).
  - unfold ballots_where. cbn [map zsum].
    assert (E3 : zsum (map (fun l => if P l then v_qty l else 0) ls) =
                 (if P v then zsum (map (fun l => if same_line v l then v_qty l else 0) ls) else 0) +
                 zsum (map (fun l => if P l && negb (same_line v l) then v_qty l else 0) ls)).
    { clear - HP. induction ls as [|x ls IH]; [destruct (P v); reflexivity|]. cbn [map zsum]. rewrite IH. destruct (same_line v x) eqn:Ex; cbn [negb].
      - rewrite <- (HP v x Ex), andb_false_r. destruct (P v); lia.
      - rewrite andb_true_r. destruct (P v), (P x); lia. }
    rewrite E3. destruct (P v); lia.
  - intros x y E. rewrite (HP x y E). f_equal. f_equal. rewrite !(same_line_sym v). apply same_line_trans, E.
Qed.

(** Every question about ballots that depends on the preferences only gets the same answer. *)
Theorem C44_counts_preserved : forall m P, clean m ->
  (forall v w, (forall c, dget c (v_prefs v) = dget c (v_prefs w)) -> P v = P w) ->
  ballots_where P (j_votelines (consolidate m)) = ballots_where P (j_votelines m).
Proof.
  intros m P H HP. rewrite C44_exact by exact H. cbn [j_votelines]. rewrite <- (bw_foe (j_votelines m)) by (intros v w E; apply HP, sl_dget, E).
  unfold ballots_where at 1. rewrite map_map. f_equal. apply map_ext. intro v. cbn [v_qty vl].
  rewrite (HP (vl (ballots_where (fun w => same_line v w) (j_votelines m)) (v_prefs v)) v) by reflexivity. reflexivity.
Qed.
Print Assumptions C44_counts_preserved.

Theorem C44_total_preserved : forall m, clean m -> total_ballots (consolidate m) = total_ballots m.
Proof. intros m H. rewrite <- !ballots_where_true. apply C44_counts_preserved; auto. Qed.
Print Assumptions C44_total_preserved.

Theorem C44_same_matrix : forall m, clean m -> tallyable m -> pairwise_count_dict (consolidate m) = pairwise_count_dict m.
Proof.
  intros m H T. apply tally_ext; [|exact T|reflexivity|].
  - destruct T as [T1 T2]. split; [exact T1|]. intros l Hl. rewrite C44_exact in Hl by exact H. cbn [j_votelines] in Hl. apply in_map_iff in Hl as (v&<-&Hv).
    apply (T2 v). apply foe_incl, Hv.
  - intros a b. unfold votes_over. apply C44_counts_preserved; [exact H|]. intros v w E. unfold prefers, rank_on. rewrite !E. reflexivity.
Qed.
Print Assumptions C44_same_matrix.

Lemma foe_idem q ls : first_of_each (map (fun v => vl (q v) (v_prefs v)) (first_of_each ls)) = map (fun v => vl (q v) (v_prefs v)) (first_of_each ls).
Proof.
  assert (G : forall l : list voteline, ForallOrdPairs (fun v w => same_line v w = false) l -> first_of_each l = l).
  { induction l as [|v l IH]; intro H; [reflexivity|]. inversion H; subst. cbn [first_of_each]. rewrite IH by assumption. f_equal.
    clear - H2. induction l as [|w l IH]; [reflexivity|]. inversion H2; subst. cbn [filter]. rewrite H1. cbn [negb]. rewrite IH by assumption. reflexivity. }
  apply G. induction ls as [|v ls IH]; [constructor|]. cbn [first_of_each map]. constructor.
  - apply Forall_forall. intros w Hw. apply in_map_iff in Hw as (x&<-&Hx). apply filter_In in Hx as [_ Hx]. change (same_line v x = false). destruct (same_line v x); [discriminate|reflexivity].
  - revert IH. generalize (first_of_each ls) as l. induction l as [|x l IHl]; intro H; [constructor|]. cbn [map] in H. inversion H; subst. cbn [filter].
    destruct (negb (same_line v x)); [|apply IHl; assumption]. cbn [map]. constructor; [|apply IHl; assumption].
    apply Forall_forall. intros w Hw. apply in_map_iff in Hw as (y&<-&Hy). apply filter_In in Hy as [Hy _].
    rewrite Forall_forall in H2. apply H2. apply in_map_iff. exists y. auto.
Qed.

Theorem C44_idempotent : forall m, clean m -> consolidate (consolidate m) = consolidate m.
Proof.
  intros m H.
  assert (C' : clean (consolidate m)).
  { intros v Hv. rewrite C44_exact in Hv by exact H. cbn [j_votelines] in Hv. apply in_map_iff in Hv as (x&<-&Hx). apply (H x), foe_incl, Hx. }
  rewrite (C44_exact (consolidate m) C').
  assert (L : j_votelines (consolidate m) = map (fun v => vl (ballots_where (fun w => same_line v w) (j_votelines m)) (v_prefs v)) (first_of_each (j_votelines m))) by (rewrite C44_exact by exact H; reflexivity).
  unfold consolidate at 5. f_equal. change (map snd (fold_left consolidate_step (j_votelines m) [])) with (j_votelines (consolidate m)).
  assert (F : first_of_each (j_votelines (consolidate m)) = j_votelines (consolidate m)) by (rewrite L; apply foe_idem). rewrite F.
  etransitivity; [|apply map_id]. apply map_ext_in. intros v Hv.
  rewrite (C44_counts_preserved m (fun w => same_line v w) H).
  - rewrite L in Hv. apply in_map_iff in Hv as (x&<-&Hx). reflexivity.
  - intros a b E. rewrite !(same_line_sym v). apply same_line_trans, dget_sl, E.
Qed.
Print Assumptions C44_idempotent.

Definition csample : jabmod := Jabmod [] [(A, u "Ann"); (B, u "Bob")]
  [ vl 2 [(A, ranked 1); (B, ranked 2)]; vl 3 [(B, ranked 1)]; Voteline 5 [(B, ranked 2); (A, ranked 1)] (Some (u "x")) None None None; vl 1 [(B, ranked 1)];
    vl 4 [(A, Pref (Some 1) (Some (RStr (u "3"))) (Some 62%N))] ].
Example C44_nonvacuous : clean csample /\ tallyable csample /\
  j_votelines (consolidate csample) = [ vl 7 [(A, ranked 1); (B, ranked 2)]; vl 4 [(B, ranked 1)]; vl 4 [(A, Pref (Some 1) (Some (RStr (u "3"))) (Some 62%N))] ].
Proof.
  split; [|split; [|reflexivity]].
  - intros v Hv. cbn in Hv. assert (N : NoDup (map fst (v_prefs v))).
    { destruct Hv as [<-|[<-|[<-|[<-|[<-|[]]]]]]; cbn; repeat constructor; cbn; intuition discriminate. }
    split; [exact N|]. intros c p Hc. destruct Hv as [<-|[<-|[<-|[<-|[<-|[]]]]]]; cbn in Hc;
      repeat (destruct Hc as [Hc|Hc]; [injection Hc as <- <-|]); try destruct Hc; cbn [p_rating p_nextdelim ranked];
      (split; [reflexivity|split; intros x Hx; try discriminate; repeat (injection Hx as <-); reflexivity]).
  - split; [nodup|]. intros l Hl. cbn in Hl. intuition (subst; reflexivity).
Qed.

(** ** C45 *)
Definition csvable (m : jabmod) : Prop :=
  ~ In (u "voterid") (cands m) /\
  forall v, In v (j_votelines m) -> 0 < v_qty v /\ (forall c p, In (c, p) (v_prefs v) -> p_rank p <> None) /\ incl (map fst (v_prefs v)) (cands m).

(** The text, read by a csv reader, is the header and then one row per ballot. *)
Theorem C45_table : forall m, csvable m -> exists text, get_ranking_output_csv m = Ok text /\
  csv_read text = (u "voterid" :: cands m) :: number_from 1 (cands m) (each_ballot (j_votelines m)).
Proof.
  intros m [Hv H]. unfold get_ranking_output_csv, csv_table. fold (cands m).
  rewrite csv_lines_ok; [|exact Hv|intros v Hin; destruct (H v Hin) as (H1&H2&H3); split; [split; assumption|exact H1]].
  cbn [bind]. eexists. split; [reflexivity|]. apply csv_read_rows. intros r [<-|Hr]; [discriminate|].
  revert Hr. change (0 + 1)%N with 1%N. generalize (each_ballot (j_votelines m)) as l, 1%N as i. induction l as [|v l IH]; intros i Hr; [destruct Hr|].
  cbn [number_from] in Hr. destruct Hr as [<-|Hr]; [discriminate|]. exact (IH _ Hr).
Qed.
Print Assumptions C45_table.

(** As many rows after the header as ballots; row k+1 belongs to ballot k. *)
Theorem C45_row_count : forall m text, csvable m -> get_ranking_output_csv m = Ok text ->
  Z.of_nat (length (csv_read text)) = 1 + total_ballots m.
Proof.
  intros m text H E. destruct (C45_table m H) as (t&E'&R). rewrite E in E'. apply ok_inj in E'. subst t. rewrite R. cbn [length].
  assert (L : forall l i, length (number_from i (cands m) l) = length l) by (induction l as [|v l IH]; intro i; cbn; [reflexivity|f_equal; apply IH]). rewrite L.
  unfold each_ballot, total_ballots. assert (Q : forall v, In v (j_votelines m) -> 0 < v_qty v) by (intros v Hv; apply H, Hv). revert Q.
  clear. induction (j_votelines m) as [|v l IH]; intro Q; [reflexivity|]. cbn [flat_map map zsum]. rewrite app_length, repeat_length.
  specialize (IH ltac:(intros w Hw; apply Q; right; exact Hw)). pose proof (Q v (or_introl eq_refl)). lia.
Qed.
Print Assumptions C45_row_count.

Theorem C45_row : forall m text k v, csvable m -> get_ranking_output_csv m = Ok text ->
  nth_error (each_ballot (j_votelines m)) k = Some v ->
  nth_error (csv_read text) (S k) = Some (ballot_row (cands m) (N.of_nat k + 1) v).
Proof.
  intros m text k v H E Hk. destruct (C45_table m H) as (t&E'&R). rewrite E in E'. apply ok_inj in E'. subst t. rewrite R. cbn [nth_error].
  assert (G : forall l k i, nth_error l k = Some v -> nth_error (number_from i (cands m) l) k = Some (ballot_row (cands m) (N.of_nat k + i) v)).
  { clear. induction l as [|w l IH]; intros [|k] i Hk; cbn [nth_error number_from] in *; try discriminate.
    - injection Hk as ->. reflexivity.
    - rewrite (IH _ _ Hk). do 2 f_equal. lia. }
  apply G, Hk.
Qed.
Print Assumptions C45_row.

(** Automatic ids of different ballots differ. *)
Theorem C45_fresh_ids : forall i j v w, v_voterid v = None -> v_voterid w = None -> row_id i v = row_id j w -> i = j.
Proof.
  intros i j v w Hv Hw. unfold row_id. rewrite Hv, Hw. intro E. apply app_inv_head in E.
  assert (P : forall n, py_int (repeat 48%N (6 - length (n2s n)) ++ n2s n) = Ok (Z.of_N n)).
  { intro n. destruct (n2s_spec n) as (ds&En&Hd&Ha&Hv'). rewrite En. set (z := repeat 48%N (6 - length ds)).
    assert (Az : forallb ascii_digit (z ++ ds) = true). { rewrite forallb_app, Ha, andb_true_r. apply forallb_forall. intros x Hx. apply repeat_spec in Hx as ->. reflexivity. }
    assert (Dz : dec 0 (z ++ ds) = n). { unfold dec in *. rewrite fold_left_app. replace (fold_left (fun a c => 10 * a + (c - 48))%N z 0%N) with 0%N; [exact Hv'|].
      symmetry. unfold z. generalize (6 - length ds)%nat as k. induction k as [|k IH]; [reflexivity|exact IH]. }
    unfold py_int. rewrite strip_nospace.
    - destruct (z ++ ds) as [|c r] eqn:Ez; [destruct z; [destruct ds; [congruence|discriminate]|discriminate]|].
      assert (Hc : ascii_digit c = true) by (cbn [forallb] in Az; apply andb_true_iff in Az as [? _]; assumption).
      unfold ascii_digit in Hc. apply andb_true_iff in Hc as [Hc1 Hc2]. apply N.leb_le in Hc1, Hc2.
      pose proof (digits_val_dec (c :: r) 0%N true Az ltac:(discriminate)) as Dv. rewrite Dz in Dv.
      destruct c as [|p]; [lia|]. 
      assert (n45 : N.pos p <> 45%N) by lia. assert (n43 : N.pos p <> 43%N) by lia.
      repeat (destruct p as [p|p|]; try lia; try (rewrite Dv; reflexivity)).
    - intros c Hc. rewrite forallb_forall in Az. specialize (Az c Hc). unfold ascii_digit in Az. apply andb_true_iff in Az as [H1 H2]. apply N.leb_le in H1, H2.
      assert (Hx : c = 48%N \/ c = 49%N \/ c = 50%N \/ c = 51%N \/ c = 52%N \/ c = 53%N \/ c = 54%N \/ c = 55%N \/ c = 56%N \/ c = 57%N) by lia.
      repeat (destruct Hx as [->|Hx]; [reflexivity|]). subst c. reflexivity. }
  pose proof (P i) as P1. rewrite E, P in P1. apply ok_inj in P1. lia.
Qed.
Print Assumptions C45_fresh_ids.

(** The first bad line decides the exception: quantity not positive, a candidate without rank, or a
    candidate that is not in the table. *)
Theorem C45_bad_line : forall m ls v rest, j_votelines m = ls ++ v :: rest -> ~ In (u "voterid") (cands m) ->
  (forall w, In w ls -> 0 < v_qty w /\ (forall c p, In (c, p) (v_prefs w) -> p_rank p <> None) /\ incl (map fst (v_prefs w)) (cands m)) ->
  (v_qty v <= 0 -> get_ranking_output_csv m = Err VotelineExn) /\
  (0 < v_qty v -> (exists c p, In (c, p) (v_prefs v) /\ p_rank p = None) -> get_ranking_output_csv m = Err KeyError) /\
  (0 < v_qty v -> (forall c p, In (c, p) (v_prefs v) -> p_rank p <> None) ->
     (exists c, In c (map fst (v_prefs v)) /\ ~ In c (cands m) /\ c <> u "voterid") -> get_ranking_output_csv m = Err ValueError).
Proof.
  intros m ls v rest E Hv H. unfold get_ranking_output_csv, csv_table. fold (cands m). rewrite E.
  destruct (csv_lines_bad (cands m) ls v rest 0%N Hv) as (B1&B2&B3).
  { intros w Hw. destruct (H w Hw) as (H1&H2&H3). split; [split; assumption|exact H1]. }
  split; [|split]; intros; [rewrite B1|rewrite B2|rewrite B3]; auto.
Qed.
Print Assumptions C45_bad_line.

Definition vsample : jabmod := Jabmod [] [(A, u "Ann"); (u "a,""b", u "Bob")]
  [ vl 2 [(A, ranked 1)]; Voteline 1 [(u "a,""b", ranked 1); (A, ranked 2)] None None (Some (u "v7")) None ].
Example C45_nonvacuous : csvable vsample /\
  get_ranking_output_csv vsample = Ok (u "voterid,A,""a,""""b""" ++ [13%N; 10%N] ++ u "voter000001,1," ++ [13%N; 10%N] ++ u "voter000002,1," ++ [13%N; 10%N] ++ u "v7,2,1" ++ [13%N; 10%N]).
Proof.
  split; [|reflexivity]. split; [cbn; intuition discriminate|]. intros v Hv. cbn in Hv. destruct Hv as [<-|[<-|[]]]; cbn [vl v_qty v_prefs]; (split; [lia|]); (split; [|intros x Hx; cbn in Hx |- *; tauto]);
    intros c p Hc; cbn in Hc; repeat (destruct Hc as [Hc|Hc]; [injection Hc as <- <-; discriminate|]); destruct Hc.
Qed.
