(** * Property C51: conversion of San Francisco files to ballots (abiflib/sftxt.py) *)

From Coq Require Import Lia.
From Verif Require Import PyBase PyFacts Jabmod Spec Regex ParserModel ParserSpec ParserFacts TextFacts UrlText JsonText WriterModel ConsolidateFacts PropsConvert.
From Verif Require Import DebtallyModel SftxtModel SftxtSpec SftxtFacts PropsSftxt SftxtFile.
Local Open Scope Z_scope.

(** Files the conversion accepts: long enough lines, a Contest record in the master file, at least one
    ballot line of this contest, and every ballot line of this contest stands for a vote: a number as
    rank, a candidate of the master file or "0000000", not both flags. *)
Definition votes_for (name_of : str -> option (option str)) (x : image) : Prop :=
  (exists r, py_int (im_rank x) = Ok r) /\ name_of (im_cand x) <> None /\ ~ (im_over x = u "1" /\ im_under x = u "1").
Definition acceptable (master ballots contest : str) : Prop :=
  (forall l, In l (splitlines master) -> (83 <= length l)%nat) /\ (forall l, In l (splitlines ballots) -> (45 <= length l)%nat) /\
  first_contest (map lookup_of (splitlines master)) contest /\
  mine contest (map image_of (splitlines ballots)) <> [] /\
  forall x, In x (mine contest (map image_of (splitlines ballots))) -> votes_for (named (map lookup_of (splitlines master))) x.

Lemma good_votes pool name_of contest xs : (forall i, dget i pool = name_of i) ->
  ((forall x, In x xs -> good pool contest x) <-> (forall x, In x (mine contest xs) -> votes_for name_of x)).
Proof.
  intro E. split; intros H x Hx.
  - apply filter_In in Hx as (Hx&Ec). apply str_eqb_eq in Ec. destruct (H x Hx Ec) as (v&H1&H2&H3&_). split; [eauto|]. split; [rewrite <- E, H2; discriminate|exact H3].
  - intro Ec. assert (Hm : In x (mine contest xs)) by (apply filter_In; split; [exact Hx|apply str_eqb_eq, Ec]). destruct (H x Hm) as ((r&H1)&H2&H3). rewrite <- E in H2. destruct (dget (im_cand x) pool) as [c|] eqn:Ed; [|congruence].
    eexists (SfVote r c _). split; [exact H1|]. split; [exact Ed|]. split; [exact H3|reflexivity].
Qed.
Lemma master_read master : (forall l, In l (splitlines master) -> (83 <= length l)%nat) -> read_sftxt_blob MASTERLOOKUP_FIELDSPEC master = Ok (map row_of (splitlines master)).
Proof.
  intro H. rewrite lookup_text, C52_fields_exact by exact spec_ok_lookup. match goal with |- context [forallb ?p ?l] => assert (E : forallb p l = true) end.
  { apply forallb_forall. intros l Hl. apply Nat.leb_le. exact (H l Hl). }
  rewrite E. reflexivity.
Qed.
Lemma ballots_read ballots : ballots <> [] -> (forall l, In l (splitlines ballots) -> (45 <= length l)%nat) ->
  read_sftxt_str BALLOTIMAGE_FIELDSPEC ballots = stream (map image_of (splitlines ballots)).
Proof.
  intros Hb H. rewrite C52_image_lines by exact Hb. unfold stream. rewrite map_map. apply map_ext_in. intros l Hl. specialize (H l Hl). apply Nat.leb_le in H. rewrite H. reflexivity.
Qed.
Lemma mine_nonempty contest ballots : mine contest (map image_of (splitlines ballots)) <> [] -> ballots <> [].
Proof. intros H ->. apply H. reflexivity. Qed.

Lemma qty_sum n verbose gs vs : Forall2 (line_of_group n verbose) gs vs -> zsum (map v_qty vs) = Z.of_nat (length gs) /\ length vs = length gs.
Proof.
  induction 1 as [|g v gs vs H F IH]; [split; reflexivity|]. destruct IH as (IH1&IH2). destruct H as (H&_). cbn [map zsum length]. rewrite H, IH1, IH2. split; lia.
Qed.

(** What the result looks like. *)
Definition converted (master ballots contest : str) (verbose : bool) (m : sf_jabmod) : Prop :=
  exists gs vs, ballots_of (mine contest (map image_of (splitlines ballots))) gs /\
    Forall2 (line_of_group (named (map lookup_of (splitlines master))) verbose) gs vs /\
    dget k_ballotcount (sf_metadata m) = Some (JInt (Z.of_nat (length gs))) /\ dget (u "contestid") (sf_metadata m) = Some (JStr contest) /\
    zsum (map v_qty (sf_votelines m)) = Z.of_nat (length gs) /\
    (verbose = true -> map (fun v => (v_qty v, v_prefs v)) (sf_votelines m) = map (fun v => (v_qty v, v_prefs v)) vs) /\
    forall P, (forall v w, (forall c, dget c (v_prefs v) = dget c (v_prefs w)) -> P v = P w) -> ballots_where P (sf_votelines m) = ballots_where P vs.

(** Acceptable files are converted: each run of lines of one voter becomes one ballot, the ballot count is
    the number of these ballots, and equally the sum of the quantities of the votelines; any question about
    preferences gets the answer of the single ballots. *)
Theorem C51_ballots_counted : forall master ballots contest verbose, acceptable master ballots contest ->
  exists m, convert_sftxt_to_jabmod master ballots verbose = Ok m /\ converted master ballots contest verbose m.
Proof.
  intros master ballots contest verbose (H1&H2&H3&H4&H5). unfold convert_sftxt_to_jabmod. rewrite master_read by exact H1. cbn [bind].
  destruct (pool_of (splitlines master) H1) as (pool&P1&P2&P3). rewrite P1. cbn [bind]. apply first_id_contest in H3. rewrite H3.
  rewrite ballots_read; [|apply (mine_nonempty contest), H4|exact H2].
  destruct (C50_grouped pool contest (map image_of (splitlines ballots))) as (gs&bs&E&B&F); [apply (good_votes pool _ contest _ P3), H5|exact H4|].
  rewrite E. cbn [bind]. destruct (ballot_lines pool verbose gs bs F) as (vs&Ev&Fv). rewrite Ev. cbn [bind].
  assert (Fv' : Forall2 (line_of_group (named (map lookup_of (splitlines master))) verbose) gs vs).
  { clear - Fv P3. induction Fv as [|g v gs vs H F IH]; constructor; [|exact IH]. apply (line_of_group_ext _ _ _ _ _ P3 H). }
  destruct (qty_sum _ _ _ _ Fv') as (Q1&Q2).
  assert (Hc : forall md, clean (Jabmod md [] vs)).
  { intros md v Hv. cbn [j_votelines] in Hv. clear - Fv' Hv. induction Fv' as [|g w gs vs H F IH]; [destruct Hv|]. destruct Hv as [<-|Hv]; [apply (group_line_clean _ _ _ _ H)|apply IH, Hv]. }
  eexists. split; [reflexivity|]. exists gs, vs. cbn [sf_metadata sf_votelines].
  split; [exact B|]. split; [exact Fv'|]. split; [rewrite Q2; reflexivity|]. split; [reflexivity|]. split; [|split].
  - destruct verbose; [exact Q1|]. match goal with |- context [Jabmod ?md [] vs] => pose proof (C44_total_preserved _ (Hc md)) as T end. unfold total_ballots in T. cbn [j_votelines] in T. rewrite T. exact Q1.
  - intros ->. reflexivity.
  - intros P HP. destruct verbose; [reflexivity|]. match goal with |- context [Jabmod ?md [] vs] => exact (C44_counts_preserved _ P (Hc md) HP) end.
Qed.
Print Assumptions C51_ballots_counted.

(** And only acceptable files are converted. *)
Theorem C51_only_acceptable : forall master ballots verbose m, convert_sftxt_to_jabmod master ballots verbose = Ok m ->
  exists contest, acceptable master ballots contest /\ converted master ballots contest verbose m.
Proof.
  intros master ballots verbose m H.
  assert (A : exists contest, acceptable master ballots contest).
  { unfold convert_sftxt_to_jabmod in H. apply bind_ok in H as (rows&E1&H).
    assert (H1 : forall l, In l (splitlines master) -> (83 <= length l)%nat).
    { rewrite lookup_text, C52_fields_exact in E1 by exact spec_ok_lookup. match type of E1 with context [forallb ?p ?l] => destruct (forallb p l) eqn:E0; [|discriminate] end.
      intros l Hl. rewrite forallb_forall in E0. specialize (E0 l Hl). apply Nat.leb_le in E0. exact E0. }
    rewrite master_read in E1 by exact H1. apply ok_inj in E1. subst rows. destruct (pool_of (splitlines master) H1) as (pool&P1&P2&P3). rewrite P1 in H. cbn [bind] in H.
    apply bind_ok in H as (bs&E2&H). apply bind_ok in H as (vls&E3&_).
    assert (Hb : ballots <> []). { intros ->. unfold read_sftxt_str in E2. rewrite image_text, (spec_ok_read _ spec_ok_image) in E2. discriminate. }
    assert (H2 : forall l, In l (splitlines ballots) -> (45 <= length l)%nat).
    { unfold convert_to_ballots in E2. apply bind_ok in E2 as (st&E2&_). destruct (foldM_all_ok _ _ _ _ E2) as (xs&Ex). rewrite C52_image_lines in Ex by exact Hb. clear - Ex.
      revert xs Ex. induction (splitlines ballots) as [|l ls IH]; intros xs Ex l' Hl; [destruct Hl|]. destruct xs as [|x xs]; [discriminate|]. cbn [map] in Ex.
      destruct (Nat.leb_spec 45 (length l)) as [L|L]; [|discriminate]. destruct Hl as [<-|Hl]; [exact L|]. injection Ex as _ Ex. apply (IH xs Ex l' Hl). }
    rewrite ballots_read in E2 by assumption. destruct (first_id (map lookup_of (splitlines master))) as [contest|] eqn:Ec.
    - exists contest. split; [exact H1|]. split; [exact H2|]. split; [apply first_id_contest, Ec|]. split.
      + intro Hm. rewrite C50_no_lines in E2 by exact Hm. apply ok_inj in E2. subst bs. discriminate.
      + apply (good_votes pool _ contest _ P3). unfold convert_to_ballots in E2. apply bind_ok in E2 as (st&E2&_).
        refine (run_good pool contest _ [] ([], emptyballot) st _ E2). left. auto.
    - exfalso. unfold convert_to_ballots in E2. pose proof (no_contest pool (map image_of (splitlines ballots))) as N0. unfold run in N0. rewrite N0 in E2. apply ok_inj in E2. subst bs. discriminate. }
  destruct A as (contest&A). exists contest. split; [exact A|]. destruct (C51_ballots_counted master ballots contest verbose A) as (m'&E&C). rewrite H in E. apply ok_inj in E. subst m'. exact C.
Qed.
Print Assumptions C51_only_acceptable.

(** Tokens: a name of at most 20 letters and digits is its own token; every token has at most 20 characters,
    all of them letters, digits or underscores (or a final newline that the name already had). *)
Theorem C51_tokens : forall name,
  (name <> [] -> (length name <= 20)%nat -> forallb alnum name = true -> sf_short_token name = name) /\
  (length (sf_short_token name) <= 20)%nat /\ (forall c, In c (sf_short_token name) -> alnum c = true \/ c = 95%N \/ (c = 10%N /\ In 10%N name)).
Proof.
  intro name. split; [|split; [apply sf_token_length|intros c Hc; apply sf_token_chars, Hc]].
  intros Hne Hl Ha. unfold sf_short_token. apply Nat.leb_le in Hl. rewrite Hl. assert (Hn : ~ In 10%N name) by (intro Hin; rewrite forallb_forall in Ha; specialize (Ha _ Hin); discriminate).
  rewrite DebtallyFacts.alnum_match by exact Hn. rewrite Ha. destruct name; [congruence|reflexivity].
Qed.
Print Assumptions C51_tokens.

(** Every token on a voteline, except "(none)", is in the candidate table. *)
Lemma table_keys pool : forall n t, (forall k, In k (dkeys t) -> In k (dkeys (cand_table n pool t))) /\
  forall i c r, In (i, Some (c :: r)) pool -> In (sf_short_token (c :: r)) (dkeys (cand_table n pool t)).
Proof.
  induction pool as [|[i0 o] pool IH]; intros n t; [split; [auto|intros ? ? ? []]|]. cbn [cand_table]. split.
  - intros k Hk. apply IH. rewrite dkeys_dset. destruct (memb _ _); [exact Hk|apply in_or_app; left; exact Hk].
  - intros i c r [E|H]; [|apply (proj2 (IH _ _) i c r H)]. injection E as -> ->. cbn [truthy]. apply IH. rewrite dkeys_dset. destruct (memb _ _) eqn:E; [apply memb_In, E|apply in_or_app; right; left; reflexivity].
Qed.
Theorem C51_tokens_listed : forall master ballots verbose m v tok, convert_sftxt_to_jabmod master ballots verbose = Ok m ->
  In v (sf_votelines m) -> In tok (map fst (v_prefs v)) -> tok <> u "(none)" -> In tok (map fst (sf_candidates m)).
Proof.
  intros master ballots verbose m v tok H Hv Ht Hnone. destruct (C51_only_acceptable _ _ _ _ H) as (contest&(H1&H2&H3&H4&H5)&_).
  unfold convert_sftxt_to_jabmod in H. rewrite master_read in H by exact H1. cbn [bind] in H. destruct (pool_of (splitlines master) H1) as (pool&P1&P2&P3). rewrite P1 in H. cbn [bind] in H.
  apply first_id_contest in H3. rewrite H3 in H. rewrite ballots_read in H; [|apply (mine_nonempty contest), H4|exact H2].
  destruct (C50_grouped pool contest (map image_of (splitlines ballots))) as (gs&bs&E&B&F); [apply (good_votes pool _ contest _ P3), H5|exact H4|].
  rewrite E in H. cbn [bind] in H. destruct (ballot_lines pool verbose gs bs F) as (vs&Ev&Fv). rewrite Ev in H. cbn [bind] in H. apply ok_inj in H. subst m. cbn [sf_votelines sf_candidates] in *.
  assert (Hc : forall md, clean (Jabmod md [] vs)).
  { intros md w Hw. cbn [j_votelines] in Hw. clear - Fv Hw. induction Fv as [|g x gs vs H F IH]; [destruct Hw|]. destruct Hw as [<-|Hw]; [apply (group_line_clean _ _ _ _ H)|apply IH, Hw]. }
  assert (W : exists w, In w vs /\ In tok (map fst (v_prefs w))).
  { destruct verbose; [exists v; auto|]. match type of Hv with context [Jabmod ?md [] vs] => rewrite (C44_exact _ (Hc md)) in Hv end. cbn [j_votelines] in Hv.
    apply in_map_iff in Hv as (w&<-&Hw). cbn [v_prefs vl] in Ht. apply foe_incl in Hw. exists w. auto. }
  destruct W as (w&Hw&Htw).
  assert (G : exists g, line_of_group (fun i => dget i pool) verbose g w). { clear - Fv Hw. induction Fv as [|g x gs vs H F IH]; [destruct Hw|]. destruct Hw as [<-|Hw]; [exists g; exact H|apply IH, Hw]. }
  destruct G as (g&_&_&Hg). apply dget_Some_In in Htw as (p&Hp). destruct (proj1 (Hg tok p) Hp) as (b0&x&a&r&_&Et&_). unfold token_on in Et.
  destruct (dget (im_cand x) pool) as [[[|c cr]|]|] eqn:Ed; try (destruct verbose; [apply some_inj in Et; congruence|discriminate]). apply some_inj in Et. subst tok. apply dget_In in Ed. apply (proj2 (table_keys pool 0 []) _ _ _ Ed).
Qed.
Print Assumptions C51_tokens_listed.

(** A pair of files. *)
Definition pad (n : nat) (s : str) : str := firstn n (s ++ repeat 32%N n).
Definition master_line (t i d : string) : str := pad 10 (u t) ++ u i ++ pad 50 (u d) ++ u "0000001" ++ u "0000020" ++ u "00".
Definition image_line (v r c flags : string) : str := u "0000020" ++ u v ++ u "0000001" ++ u "002" ++ u "0000111" ++ u r ++ u c ++ u flags.
Definition sf_master : str := unlines
  [ master_line "Candidate" "0000007" "MARK LENO"; master_line "Contest" "0000020" "Mayor"; master_line "Candidate" "0000008" "JANE KIM"; master_line "Contest" "0000021" "Sheriff" ].
Definition sf_file : str := unlines
  [ image_line "000000002" "001" "0000007" "00"; image_line "000000002" "002" "0000008" "00"; image_line "000000002" "003" "0000000" "01";
    image_line "000000003" "001" "0000008" "00"; image_line "000000003" "002" "0000000" "10"; image_line "000000003" "003" "0000007" "00";
    image_line "000000004" "001" "0000007" "00"; image_line "000000004" "002" "0000008" "00" ].
Example C51_accepts : acceptable sf_master sf_file (u "0000020").
Proof.
  unfold acceptable. split; [|split; [|split; [|split]]].
  - intros l Hl. vm_compute in Hl. repeat destruct Hl as [<-|Hl]; try destruct Hl; cbn; lia.
  - intros l Hl. vm_compute in Hl. repeat destruct Hl as [<-|Hl]; try destruct Hl; cbn; lia.
  - apply first_id_contest. vm_compute. reflexivity.
  - vm_compute. discriminate.
  - intros x Hx. assert (C : forallb (fun x => match py_int (im_rank x), named (map lookup_of (splitlines sf_master)) (im_cand x) with Ok _, Some _ => negb (str_eqb (im_over x) (u "1") && str_eqb (im_under x) (u "1")) | _, _ => false end) (mine (u "0000020") (map image_of (splitlines sf_file))) = true) by (vm_compute; reflexivity).
    rewrite forallb_forall in C. specialize (C x Hx). unfold votes_for. destruct (py_int (im_rank x)) as [r|]; [|discriminate]. destruct (named _ (im_cand x)); [|discriminate].
    split; [eauto|]. split; [discriminate|]. intros (E1&E2). rewrite E1, E2 in C. discriminate.
Qed.
Example C51_converts : exists m, convert_sftxt_to_jabmod sf_master sf_file false = Ok m /\
  sf_metadata m = [(k_ballotcount, JInt 3); (u "contestid", JStr (u "0000020"))] /\
  map (fun v => (v_qty v, v_prefs v)) (sf_votelines m) =
    [(2, [(u "MARK_LENO", ranked 1); (u "JANE_KIM", ranked 2)]); (1, [(u "JANE_KIM", ranked 1); (u "MARK_LENO", ranked 3)])].
Proof. eexists. split; [vm_compute; reflexivity|]. split; vm_compute; reflexivity. Qed.

(** A voter who marks one candidate first and again third is recorded as giving rank 3, although the
    program says that "higher ranked duplicates take priority". *)
Theorem C51_duplicate_refuted : exists ballots m, acceptable sf_master ballots (u "0000020") /\
  splitlines ballots = [image_line "000000002" "001" "0000007" "00"; image_line "000000002" "002" "0000008" "00"; image_line "000000002" "003" "0000007" "00"] /\
  convert_sftxt_to_jabmod sf_master ballots false = Ok m /\
  map v_prefs (sf_votelines m) = [[(u "MARK_LENO", ranked 3); (u "JANE_KIM", ranked 2)]].
Proof.
  exists (unlines [image_line "000000002" "001" "0000007" "00"; image_line "000000002" "002" "0000008" "00"; image_line "000000002" "003" "0000007" "00"]). eexists.
  assert (E : exists m, convert_sftxt_to_jabmod sf_master (unlines [image_line "000000002" "001" "0000007" "00"; image_line "000000002" "002" "0000008" "00"; image_line "000000002" "003" "0000007" "00"]) false = Ok m) by (eexists; vm_compute; reflexivity).
  split; [|split; [vm_compute; reflexivity|split; [vm_compute; reflexivity|vm_compute; reflexivity]]].
  destruct E as (m&E). destruct (C51_only_acceptable _ _ _ _ E) as (c&A&_). assert (Ec : c = u "0000020"); [|rewrite <- Ec; exact A].
  destruct A as (_&_&Hc&_). apply first_id_contest in Hc. vm_compute in Hc. apply some_inj in Hc. rewrite <- Hc. vm_compute. reflexivity.
Qed.
Print Assumptions C51_duplicate_refuted.

(** Two candidates whose names agree on the first 20 token characters become one. *)
Theorem C51_distinct_tokens_refuted : exists a b, a <> b /\ sf_short_token a = sf_short_token b /\
  exists master ballots m, convert_sftxt_to_jabmod master ballots false = Ok m /\ map lk_desc (map lookup_of (splitlines master)) = [u "Mayor"; a; b] /\
    map v_prefs (sf_votelines m) = [[(sf_short_token a, ranked 2)]].
Proof.
  exists (u "WRITE-IN MICHELLE BRAVO MERCED"), (u "WRITE-IN MICHELLE BRAVO MENDEZ"). split; [discriminate|]. split; [vm_compute; reflexivity|].
  exists (unlines [master_line "Contest" "0000020" "Mayor"; master_line "Candidate" "0000007" "WRITE-IN MICHELLE BRAVO MERCED"; master_line "Candidate" "0000008" "WRITE-IN MICHELLE BRAVO MENDEZ"]).
  exists (unlines [image_line "000000002" "001" "0000007" "00"; image_line "000000002" "002" "0000008" "00"]). eexists.
  split; [vm_compute; reflexivity|]. split; vm_compute; reflexivity.
Qed.
Print Assumptions C51_distinct_tokens_refuted.
