(** * NameqFacts: writing and reading .nameq lines *)

From Coq Require Import Lia.
From Verif Require Import PyBase PyFacts Jabmod Spec ParserSpec ParserFacts TextFacts UrlText UrlFacts NameqModel.
Local Open Scope Z_scope.

(** What a line says: who has which rank, in the order of the line. *)
Definition ballot (v : voteline) : list (str * option Z) := map (fun kv => (fst kv, p_rank (snd kv))) (v_prefs v).

Definition part_of (kv : str * Z) (p : str) : Prop := exists q, quote_plus (fst kv) = Ok q /\ p = q ++ [61%N] ++ z2s (snd kv).

Lemma url_not c d : url_char c = true -> url_char d = false -> c <> d. Proof. congruence. Qed.
Lemma int_char_plain c : int_char c = true -> c <> 43%N /\ c <> 37%N /\ c <> 38%N /\ c <> 61%N /\ is_space c = false /\ is_linebreak c = false /\ (c <? 128)%N = true.
Proof.
  unfold int_char, ascii_digit. intro H. assert (G : (c = 45 \/ 48 <= c <= 57)%N).
  { apply orb_prop in H as [H|H]; [apply andb_prop in H as [H1 H2]; apply N.leb_le in H1, H2; lia|apply N.eqb_eq in H; lia]. }
  repeat split; try lia.
  - unfold is_space. repeat (apply orb_false_intro); try (apply N.eqb_neq; lia);
      match goal with |- (?a <=? _)%N && (_ <=? ?b)%N = false => destruct (N.leb_spec a c); [destruct (N.leb_spec c b); [lia|reflexivity]|reflexivity] end.
  - unfold is_linebreak. repeat (apply orb_false_intro); try (apply N.eqb_neq; lia);
      match goal with |- (?a <=? _)%N && (_ <=? ?b)%N = false => destruct (N.leb_spec a c); [destruct (N.leb_spec c b); [lia|reflexivity]|reflexivity] end.
Qed.
Lemma url_char_plain c : url_char c = true -> is_space c = false /\ is_linebreak c = false /\ c <> 38%N /\ c <> 61%N.
Proof.
  intro H. assert (G : (37 <= c < 127 /\ c <> 38 /\ c <> 61)%N).
  { unfold url_char, always_safe, inr in H.
    repeat (apply orb_prop in H as [H|H]); try (apply andb_prop in H as [H1 H2]; apply N.leb_le in H1, H2); try (apply N.eqb_eq in H); lia. }
  repeat split; try lia.
  - unfold is_space. repeat (apply orb_false_intro); try (apply N.eqb_neq; lia);
      match goal with |- (?a <=? _)%N && (_ <=? ?b)%N = false => destruct (N.leb_spec a c); [destruct (N.leb_spec c b); [lia|reflexivity]|reflexivity] end.
  - unfold is_linebreak. repeat (apply orb_false_intro); try (apply N.eqb_neq; lia);
      match goal with |- (?a <=? _)%N && (_ <=? ?b)%N = false => destruct (N.leb_spec a c); [destruct (N.leb_spec c b); [lia|reflexivity]|reflexivity] end.
Qed.

Lemma part_chars kv p c : part_of kv p -> In c p -> url_char c = true \/ int_char c = true \/ c = 61%N.
Proof.
  intros (q&Hq&->) Hc. apply in_app_or in Hc as [Hc|Hc].
  - left. pose proof (quote_plus_chars _ _ Hq) as H. rewrite forallb_forall in H. apply H, Hc.
  - cbn [app] in Hc. destruct Hc as [<-|Hc]; [right; right; reflexivity|]. right; left.
    pose proof (z2s_chars (snd kv)) as H. rewrite forallb_forall in H. apply H, Hc.
Qed.
Lemma part_char_plain kv p c : part_of kv p -> In c p -> is_space c = false /\ is_linebreak c = false /\ c <> 38%N.
Proof.
  intros H Hc. destruct (part_chars _ _ _ H Hc) as [G|[G| ->]].
  - apply url_char_plain in G. tauto.
  - apply int_char_plain in G. tauto.
  - repeat split; try reflexivity. discriminate.
Qed.

Lemma plus_id s : (forall c, In c s -> c <> 43%N) -> plus_to_space s = s.
Proof.
  intro H. unfold plus_to_space. rewrite <- (map_id s) at 2. apply map_ext_in. intros c Hc. destruct (N.eqb_spec c 43); [destruct (H c Hc e)|reflexivity].
Qed.
Lemma unquote_int z : unquote (plus_to_space (z2s z)) = z2s z.
Proof.
  assert (G : forall c, In c (z2s z) -> int_char c = true). { pose proof (z2s_chars z) as H. rewrite forallb_forall in H. exact H. }
  rewrite plus_id by (intros c Hc; apply (int_char_plain c (G c Hc))). unfold unquote.
  destruct (existsb (N.eqb 37) (z2s z)) eqn:E; [|reflexivity]. apply existsb_exists in E as (c&Hc&E). apply N.eqb_eq in E. subst c.
  destruct (int_char_plain _ (G _ Hc)) as (_&H&_). congruence.
Qed.

Lemma parse_part kv p : part_of kv p ->
  match split_once 61 p with
  | Some (n, v) => match v with [] => [] | _ => [(unquote (plus_to_space n), unquote (plus_to_space v))] end
  | None => []
  end = [(fst kv, z2s (snd kv))].
Proof.
  intros (q&Hq&->). cbn [app]. rewrite split_once_app.
  - destruct (z2s (snd kv)) as [|c r] eqn:Ez; [destruct (z2s_ne _ Ez)|]. rewrite <- Ez. rewrite unquote_int, (unquote_quote _ _ Hq). reflexivity.
  - intro Hin. pose proof (quote_plus_chars _ _ Hq) as H. rewrite forallb_forall in H. specialize (H _ Hin). discriminate H.
Qed.

Lemma parse_parts kvs ps : Forall2 part_of kvs ps -> parse_qsl (join [38%N] ps) = map (fun kv => (fst kv, z2s (snd kv))) kvs.
Proof.
  intro F. destruct F as [|kv p kvs ps H0 F]; [reflexivity|]. assert (F' : Forall2 part_of (kv :: kvs) (p :: ps)) by (constructor; assumption).
  unfold parse_qsl. destruct (join [38%N] (p :: ps)) as [|c t] eqn:Ej.
  - exfalso. apply (f_equal (split_on 38%N)) in Ej. rewrite split_on_join in Ej; [|discriminate|].
    + injection Ej as -> _. destruct H0 as (q&_&E). destruct q; discriminate.
    + intros x Hx. assert (exists kv', part_of kv' x) as (kv'&Hk).
      { clear - F' Hx. induction F' as [|a b l l' Hab _ IH]; [destruct Hx|]. destruct Hx as [<-|Hx]; [exists a; exact Hab|exact (IH Hx)]. }
      intro Hin. destruct (part_char_plain _ _ _ Hk Hin) as (_&_&H). congruence.
  - rewrite <- Ej. rewrite split_on_join; [|discriminate|].
    + clear Ej H0 F. induction F' as [|a b l l' Hab _ IH]; [reflexivity|]. cbn [flat_map map]. rewrite IH.
      pose proof (parse_part _ _ Hab) as E. cbn [app] in *. rewrite E. reflexivity.
    + intros x Hx. assert (exists kv', part_of kv' x) as (kv'&Hk).
      { clear - F' Hx. induction F' as [|a b l l' Hab _ IH]; [destruct Hx|]. destruct Hx as [<-|Hx]; [exists a; exact Hab|exact (IH Hx)]. }
      intro Hin. destruct (part_char_plain _ _ _ Hk Hin) as (_&_&H). congruence.
Qed.

Lemma parse_qs_nodup l : NoDup (map fst l) -> forall d, (forall k, In k (map fst l) -> ~ In k (dkeys d)) ->
  fold_left (fun d (nv : str * str) => match dget (fst nv) d with
                         | Some vs => dset (fst nv) (vs ++ [snd nv]) d
                         | None => dset (fst nv) [snd nv] d
                         end) l d = d ++ map (fun nv => (fst nv, [snd nv])) l.
Proof.
  induction l as [|[k v] l IH]; intros Hn d Hd; cbn [fold_left map fst snd]; [rewrite app_nil_r; reflexivity|].
  inversion Hn as [|? ? Hk Hn']; subst.
  assert (Hk' : ~ In k (dkeys d)) by (apply Hd; left; reflexivity).
  rewrite (proj2 (dget_None k d) Hk'). rewrite dkeys_dset_nIn by exact Hk'. rewrite IH; [rewrite <- app_assoc; reflexivity|exact Hn'|].
  intros k' Hk1. unfold dkeys. rewrite map_app. intro Hin. apply in_app_or in Hin as [Hin|[<-|[]]]; [|apply Hk; exact Hk1].
  exact (Hd k' (or_intror Hk1) Hin).
Qed.

Definition ranks_of (kvs : list (str * Z)) : dict pref := map (fun kv => (fst kv, ranked (snd kv))) kvs.

Lemma nameq_line_ok kvs ps : Forall2 part_of kvs ps -> NoDup (map fst kvs) ->
  one_line (join [38%N] ps) /\ nameq_line (join [38%N] ps) = Ok (Voteline 1 (ranks_of kvs) None None None (Some (join [38%N] ps))).
Proof.
  intros F Hn.
  assert (Hc : forall c, In c (join [38%N] ps) -> is_space c = false /\ is_linebreak c = false).
  { intros c Hc. apply In_join in Hc as [[<-|[]]|(x&Hx&Hc)]; [split; reflexivity|].
    assert (exists kv', part_of kv' x) as (kv'&Hk).
    { clear - F Hx. induction F as [|a b l l' Hab _ IH]; [destruct Hx|]. destruct Hx as [<-|Hx]; [exists a; exact Hab|exact (IH Hx)]. }
    destruct (part_char_plain _ _ _ Hk Hc) as (H1&H2&_). auto. }
  split; [intros c H; apply Hc, H|].
  unfold nameq_line. rewrite strip_nospace by (intros c H; apply Hc, H). unfold parse_qs. rewrite (parse_parts _ _ F).
  rewrite parse_qs_nodup; [|rewrite map_map; exact Hn|intros k _ []]. rewrite app_nil_l, map_map. cbn [fst snd].
  match goal with |- bind ?x _ = _ => assert (G : x = Ok (ranks_of kvs)) end; [|rewrite G; reflexivity].
  assert (K : forall l d, NoDup (dkeys d ++ map fst l) ->
    foldM (fun d (kv : str * list str) => bind (match snd kv with v0 :: _ => py_int v0 | [] => Err IndexError end) (fun r => Ok (dset (fst kv) (ranked r) d)))
      (map (fun x : str * Z => (fst x, [z2s (snd x)])) l) d = Ok (d ++ ranks_of l)).
  { induction l as [|[k z] l IH]; intros d Hd; cbn [map foldM fst snd ranks_of]; [rewrite app_nil_r; reflexivity|].
    rewrite py_int_z2s. cbn [bind]. cbn [map fst] in Hd. pose proof (NoDup_remove_2 _ _ _ Hd) as Hk.
    rewrite dkeys_dset_nIn by (intro Hin; apply Hk; apply in_or_app; left; exact Hin).
    rewrite IH; [rewrite <- app_assoc; reflexivity|]. unfold dkeys. rewrite map_app, <- app_assoc. exact Hd. }
  exact (K kvs [] Hn).
Qed.

(** What nameq_text writes. *)
Lemma nameq_text_ok v t : nameq_text v = Ok t ->
  exists kvs ps, Forall2 part_of kvs ps /\ t = join [38%N] ps ++ [10%N] /\
    ballot v = map (fun kv => (fst kv, Some (snd kv))) kvs.
Proof.
  unfold nameq_text. intro H. apply bind_ok in H as (ps&Hm&Ht). apply ok_inj in Ht. subst t. apply mapM_inv in Hm.
  unfold ballot. remember (v_prefs v) as l eqn:El. clear El.
  assert (G : exists kvs, Forall2 part_of kvs ps /\ map (fun kv => (fst kv, p_rank (snd kv))) l = map (fun kv : str * Z => (fst kv, Some (snd kv))) kvs).
  { induction Hm as [|[k p] y l l' Hp _ IH]; [exists []; split; [constructor|reflexivity]|].
    destruct IH as (kvs&F&E). cbn [fst snd] in Hp. apply bind_ok in Hp as (q&Hq&Hp). apply bind_ok in Hp as (r&Hr&Hp). apply ok_inj in Hp. subst y.
    destruct (p_rank p) as [z|] eqn:Ez; [|discriminate]. cbn in Hr. apply ok_inj in Hr. subst z.
    exists ((k, r) :: kvs). split; [constructor; [exists q; split; [exact Hq|reflexivity]|exact F]|]. cbn [map fst snd]. rewrite Ez, E. reflexivity. }
  destruct G as (kvs&F&E). exists kvs, ps. auto.
Qed.

Lemma unlines_app a b : unlines (a ++ b) = unlines a ++ unlines b.
Proof. apply flat_map_app. Qed.

Lemma ballot_names v kvs : ballot v = map (fun kv : str * Z => (fst kv, Some (snd kv))) kvs -> map fst (v_prefs v) = map fst kvs.
Proof.
  intro H. apply (f_equal (map fst)) in H. unfold ballot in H. rewrite !map_map in H. exact H.
Qed.

(** The lines of the written text and what they are read as. *)
Lemma nameq_lines ls ts : (forall v, In v ls -> NoDup (map fst (v_prefs v))) ->
  mapM (fun v => if v_qty v >? 0 then bind (nameq_text v) (fun t => Ok (concat (repeat t (Z.to_nat (v_qty v))))) else Ok []) ls = Ok ts ->
  exists lines vs, concat ts = unlines lines /\ (forall l, In l lines -> one_line l) /\
    mapM nameq_line lines = Ok vs /\ (forall v, In v vs -> v_qty v = 1 /\ exists kvs, v_prefs v = ranks_of kvs) /\
    map ballot vs = flat_map (fun v => repeat (ballot v) (Z.to_nat (v_qty v))) ls.
Proof.
  intros Hn Hm. apply mapM_inv in Hm. induction Hm as [|v t ls ts Hv _ IH].
  - exists [], []. split; [reflexivity|]. split; [intros ? []|]. split; [reflexivity|]. split; [intros ? []|reflexivity].
  - destruct IH as (lines&vs&E1&E2&E3&E4&E5); [intros w Hw; apply Hn; right; exact Hw|].
    cbn [concat flat_map]. destruct (v_qty v >? 0) eqn:Eq.
    + apply bind_ok in Hv as (s&Hs&Ht). apply ok_inj in Ht. subst t. destruct (nameq_text_ok _ _ Hs) as (kvs&ps&F&->&Eb).
      assert (Hnd : NoDup (map fst kvs)) by (rewrite <- (ballot_names _ _ Eb); apply Hn; left; reflexivity).
      destruct (nameq_line_ok _ _ F Hnd) as (Ho&Hl).
      remember (Z.to_nat (v_qty v)) as n eqn:En. clear En.
      exists (repeat (join [38%N] ps) n ++ lines), (repeat (Voteline 1 (ranks_of kvs) None None None (Some (join [38%N] ps))) n ++ vs).
      assert (Eb' : ballot (Voteline 1 (ranks_of kvs) None None None (Some (join [38%N] ps))) = ballot v).
      { rewrite Eb. unfold ballot, ranks_of. cbn [v_prefs]. rewrite map_map. reflexivity. }
      split; [|split; [|split; [|split]]].
      * rewrite unlines_app, E1. f_equal. clear. induction n as [|n IH]; [reflexivity|]. cbn [repeat concat unlines flat_map]. unfold unlines in IH. rewrite IH. reflexivity.
      * intros l Hl'. apply in_app_or in Hl' as [Hl'|Hl']; [|apply E2; exact Hl']. apply repeat_spec in Hl'. subst l. exact Ho.
      * clear - Hl E3. induction n as [|n IH]; [exact E3|]. cbn [repeat app mapM]. rewrite Hl. cbn [bind]. rewrite IH. reflexivity.
      * intros w Hw. apply in_app_or in Hw as [Hw|Hw]; [|apply E4; exact Hw]. apply repeat_spec in Hw. subst w. split; [reflexivity|]. exists kvs. reflexivity.
      * rewrite map_app, E5. f_equal. rewrite <- Eb'. clear. induction n as [|n IH]; [reflexivity|]. cbn [repeat map]. rewrite IH. reflexivity.
    + apply ok_inj in Hv. subst t. exists lines, vs. split; [exact E1|]. split; [exact E2|]. split; [exact E3|]. split; [exact E4|].
      rewrite E5. replace (Z.to_nat (v_qty v)) with 0%nat; [reflexivity|]. rewrite Z.gtb_ltb in Eq. apply Z.ltb_ge in Eq. lia.
Qed.

(** The candidate table of a read file. *)
Definition nameq_cands (lines : list voteline) : dict str :=
  fold_left (fun t v => fold_left (fun t k => dset k k t) (map fst (v_prefs v)) t) lines [].
Lemma self_fold ks : forall t : dict str, NoDup (dkeys t) -> (forall k n, In (k, n) t -> n = k) ->
  let t' := fold_left (fun t k => dset k k t) ks t in
  NoDup (dkeys t') /\ (forall k n, In (k, n) t' -> n = k) /\ (forall k, In k (dkeys t') <-> In k (dkeys t) \/ In k ks).
Proof.
  induction ks as [|k ks IH]; intros t Hn Hs; cbn [fold_left]; [cbn; repeat split; auto; tauto|].
  destruct (IH (dset k k t)) as (I1&I2&I3).
  - apply NoDup_dset, Hn.
  - intros k' n Hin. apply (dget_In_nodup _ _ _ (NoDup_dset k k t Hn)) in Hin. rewrite dget_dset in Hin.
    destruct (str_eqb_spec k' k) as [->|]; [apply some_inj in Hin; congruence|]. apply Hs. apply dget_In, Hin.
  - split; [exact I1|]. split; [exact I2|]. intro k'. cbn zeta in I3. rewrite I3, In_dkeys_dset. cbn [In]. intuition.
Qed.
Lemma nameq_cands_ok vs : NoDup (dkeys (nameq_cands vs)) /\ (forall k n, In (k, n) (nameq_cands vs) -> n = k) /\
  (forall k, In k (dkeys (nameq_cands vs)) <-> exists v, In v vs /\ In k (map fst (v_prefs v))).
Proof.
  unfold nameq_cands.
  assert (G : forall vs (t : dict str), NoDup (dkeys t) -> (forall k n, In (k, n) t -> n = k) ->
    let t' := fold_left (fun t v => fold_left (fun t k => dset k k t) (map fst (v_prefs v)) t) vs t in
    NoDup (dkeys t') /\ (forall k n, In (k, n) t' -> n = k) /\
    (forall k, In k (dkeys t') <-> In k (dkeys t) \/ exists v, In v vs /\ In k (map fst (v_prefs v)))).
  { clear vs. induction vs as [|v vs IH]; intros t Hn Hs; cbn [fold_left].
    - cbn. repeat split; auto. intros [H|(v&[]&_)]; exact H.
    - destruct (self_fold (map fst (v_prefs v)) t Hn Hs) as (S1&S2&S3). destruct (IH _ S1 S2) as (I1&I2&I3). cbn zeta in S3.
      split; [exact I1|]. split; [exact I2|]. intro k. cbn zeta in I3. rewrite I3, S3. split.
      + intros [[H|H]|(w&Hw&Hk)]; [left; exact H|right; exists v; split; [left; reflexivity|exact H]|right; exists w; split; [right; exact Hw|exact Hk]].
      + intros [H|(w&[<-|Hw]&Hk)]; [left; left; exact H|left; right; exact Hk|right; exists w; auto]. }
  destruct (G vs [] (NoDup_nil _)) as (G1&G2&G3); [intros ? ? []|]. split; [exact G1|]. split; [exact G2|].
  intro k. cbn zeta in G3. rewrite G3. cbn. intuition.
Qed.
