(** * Property C65: conversion of a text in any input format to ABIF (convert_text_to_abif, abiflib/util.py) *)

From Coq Require Import Lia Permutation Sorted.
From Verif Require Import PyBase PyFacts Jabmod Regex Spec ParserModel ParserSpec ParserFacts ParserFile ParserText ParserLines PairwiseModel PairwiseFacts PropsPairwise PropsParser.
From Verif Require Import TextFacts UrlText UrlFacts JsonText JsonFacts WriterModel ConsolidateFacts PropsConvert RoundtripFacts RoundtripFile RoundtripParsed PropsRoundtrip.
From Verif Require Import PreflibModel DebtallyModel ImportSpec ImportFacts PreflibFacts DebtallyFacts PropsImport SftxtModel SftxtSpec SftxtFacts PropsSftxt SftxtFile PropsSftxtFile.
From Verif Require Import JsonParse JsonParseFacts JabmodJson PropsJson ConvertModel PropsWidj PropsDiagram.
Local Open Scope Z_scope.
Local Open Scope res_scope.

Local Ltac cases H := match type of H with _ \/ _ => destruct H as [H|H]; cases H | False => destruct H | _ => idtac end.
Ltac eval_fmt := repeat match goal with |- context [str_eqb (u ?a) (u ?b)] => let r := eval vm_compute in (str_eqb (u a) (u b)) in change (str_eqb (u a) (u b)) with r end; cbv iota.
(** ** Formats *)
Definition converted_formats : list str := [u "abif"; u "debtally"; u "jabmod"; u "preflib"; u "sftxt"; u "widj"].

(** Any other format is refused, whatever the text. *)
Theorem C65_unsupported : forall sha1 fmt text rest cleanws add_ratings metadata, ~ In fmt converted_formats ->
  convert_text_to_abif sha1 fmt (text :: rest) cleanws add_ratings metadata = Err VotelineExn.
Proof.
  intros sha1 fmt text rest cw ar md H. unfold convert_text_to_abif.
  repeat match goal with |- context [str_eqb fmt ?s] => destruct (str_eqb_spec fmt s) as [->|_]; [destruct H; unfold converted_formats; cbn; tauto|] end. reflexivity.
Qed.
Print Assumptions C65_unsupported.
(** Without input texts every conversion fails with IndexError, and so does sftxt with one text only. *)
Theorem C65_missing_input : forall sha1 fmt cleanws add_ratings metadata,
  convert_text_to_abif sha1 fmt [] cleanws add_ratings metadata = Err IndexError /\
  forall text, convert_text_to_abif sha1 (u "sftxt") [text] cleanws add_ratings metadata = Err IndexError.
Proof.
  intros sha1 fmt cw ar md. split; [|intro text; reflexivity]. unfold convert_text_to_abif, blob. cbn [nth_error of_option bind].
  repeat match goal with |- context [str_eqb fmt ?s] => destruct (str_eqb fmt s); [reflexivity|] end. reflexivity.
Qed.
Print Assumptions C65_missing_input.
(** Electowidget files are never converted. *)
Theorem C65_widj_refuted : forall sha1 text rest cleanws add_ratings metadata,
  convert_text_to_abif sha1 (u "widj") (text :: rest) cleanws add_ratings metadata = Err NameError.
Proof. reflexivity. Qed.
Print Assumptions C65_widj_refuted.
(** Only the first text counts, except that sftxt takes two; the metadata are used for tally sheets only. *)
Theorem C65_arguments : forall sha1 fmt a b rest rest' cleanws add_ratings metadata metadata',
  convert_text_to_abif sha1 fmt (a :: b :: rest) cleanws add_ratings metadata = convert_text_to_abif sha1 fmt (a :: b :: rest') cleanws add_ratings metadata /\
  (fmt <> u "sftxt" -> convert_text_to_abif sha1 fmt (a :: rest) cleanws add_ratings metadata = convert_text_to_abif sha1 fmt (a :: rest') cleanws add_ratings metadata) /\
  (fmt <> u "debtally" -> convert_text_to_abif sha1 fmt (a :: rest) cleanws add_ratings metadata = convert_text_to_abif sha1 fmt (a :: rest) cleanws add_ratings metadata').
Proof.
  intros sha1 fmt a b0 rest rest' cw ar md md'. unfold convert_text_to_abif, blob. cbn [nth_error of_option bind]. split; [reflexivity|]. split; intro H.
  - destruct (str_eqb_spec fmt (u "sftxt")) as [->|_]; [congruence|]. reflexivity.
  - destruct (str_eqb_spec fmt (u "debtally")) as [->|_]; [congruence|]. reflexivity.
Qed.
Print Assumptions C65_arguments.

(** ** ABIF to ABIF *)
Theorem C65_abif : forall sha1 text rest cleanws metadata, let run := convert_text_to_abif sha1 (u "abif") (text :: rest) cleanws false metadata in
  (convert_abif_to_jabmod text cleanws false false = Err VotelineExn -> run = Err SystemExit) /\
  forall m, convert_abif_to_jabmod text cleanws false false = Ok m ->
    (forall t, In t (cands m) -> writable_token t) -> (forall v, In v (j_votelines m) -> ratings_agree v) ->
    forall cleanws2, exists text2 m2, run = Ok text2 /\ convert_abif_to_jabmod text2 cleanws2 false false = Ok m2 /\
      Forall2 same_votes (j_votelines m) (j_votelines m2) /\
      Forall2 (fun v w => forall c, rating_on w c = rating_on v c) (j_votelines m) (j_votelines m2).
Proof.
  intros sha1 text rest cw md. cbn zeta. unfold convert_text_to_abif, blob. cbn [str_eqb nth_error of_option bind]. split.
  - intro E. rewrite E. reflexivity.
  - intros m E Ht Hr cw2. rewrite E. destruct (C40_parsed_roundtrip text cw false m cw2 E Ht Hr) as (text2&m2&E1&E2&F1&F2&_). exists text2, m2. auto.
Qed.
Print Assumptions C65_abif.

(** ** A jabmod in a JSON file *)
(** An object with all names present is a jabmod as it is. *)
Lemma jabmod_members j m : jabmod_of_json j = Some m -> exists l cs, j = JObj l /\ dget (u "candidates") l = Some (JObj cs) /\ mapO (entry str_of_json) cs = Some (j_candidates m).
Proof.
  destruct j as [| | | | |l]; try discriminate. unfold jabmod_of_json, member. destruct (dget (u "metadata") l) as [md|]; [|discriminate]. destruct (dget (u "candidates") l) as [c|] eqn:Ec; [|destruct md; discriminate].
  intro H. destruct md; try discriminate. destruct c as [| | | | |cs]; try discriminate. destruct (dget (u "votelines") l) as [v|]; [|discriminate]. destruct v; try discriminate.
  destruct (mapO (entry str_of_json) cs) as [a|] eqn:Ea; [|discriminate]. destruct (mapO voteline_of_json l1) as [b|]; [|discriminate]. injection H as <-. exists l, cs. auto.
Qed.
Lemma all_named cs t : mapO (entry str_of_json) cs = Some t -> forall kv, In kv cs -> is_null (snd kv) = false.
Proof.
  revert t. induction cs as [|[k v] cs IH]; intros t H kv Hin; [destruct Hin|]. cbn [mapO] in H. unfold entry in H at 1. cbn [fst snd] in H. destruct (str_of_json v) as [x|] eqn:Ev; [|discriminate].
  destruct (mapO (entry str_of_json) cs) as [t'|] eqn:Et; [|discriminate]. destruct Hin as [<- | Hin]; [destruct v; try discriminate; reflexivity|exact (IH t' eq_refl kv Hin)].
Qed.
Lemma dget_at_key k f l : forall k', dget k' (map (fun kv : str * json => if str_eqb (fst kv) k then (fst kv, f (snd kv)) else kv) l) = if str_eqb k' k then option_map f (dget k' l) else dget k' l.
Proof.
  induction l as [|[a v] l IH]; intro k'; [destruct (str_eqb k' k); reflexivity|]. cbn [map dget fst snd]. destruct (str_eqb_spec a k) as [->|N]; cbn [dget fst snd].
  - destruct (str_eqb_spec k' k) as [->|N]; [reflexivity|]. rewrite (IH k'). destruct (str_eqb_spec k' k); [congruence|reflexivity].
  - destruct (str_eqb_spec k' a) as [->|N']; [|apply IH]. destruct (str_eqb_spec a k); [congruence|reflexivity].
Qed.
Lemma named_loads j m : jabmod_of_json j = Some m -> jabmod_of_json (name_nulls j) = Some m.
Proof.
  intro H. destruct (jabmod_members j m H) as (l&cs&->&Ec&En). rewrite <- H. unfold name_nulls, at_key, jabmod_of_json. 
  set (g := fun c : json => match c with JObj l0 => JObj (map (fun kv => (fst kv, none_name (snd kv))) l0) | _ => c end).
  assert (E : forall k, member k (map (fun kv => if str_eqb (fst kv) (u "candidates") then (fst kv, g (snd kv)) else kv) l) = member k l).
  { intro k. unfold member. rewrite (dget_at_key (u "candidates") g l (u k)). destruct (str_eqb_spec (u k) (u "candidates")) as [Ek|]; [|reflexivity]. rewrite Ek, Ec. cbn [option_map]. unfold g.
    rewrite (map_ext_in (fun kv : str * json => (fst kv, none_name (snd kv))) (fun kv => kv)); [rewrite map_id; reflexivity|]. intros [a v] Hin. unfold none_name. cbn [fst snd]. pose proof (all_named cs _ En (a, v) Hin) as X. cbn [snd] in X. rewrite X. reflexivity. }
  rewrite !E. reflexivity.
Qed.
Lemma nobody_null j m : jabmod_of_json j = Some m -> null_named j = [].
Proof.
  intro H. destruct (jabmod_members j m H) as (l&cs&->&Ec&En). unfold null_named, member. rewrite Ec. pose proof (all_named cs _ En) as A. clear -A. induction cs as [|kv cs IH]; [reflexivity|].
  cbn [filter]. rewrite (A kv (or_introl eq_refl)). apply IH. intros x Hx. apply A. right; exact Hx.
Qed.
Theorem C65_jabmod : forall sha1 m rest cleanws add_ratings metadata, storable m ->
  convert_text_to_abif sha1 (u "jabmod") (dumps_indent 4 (json_of_jabmod m) :: rest) cleanws add_ratings metadata = convert_jabmod_to_abif m /\
  (writable m -> forall cleanws2, exists text m2 ws,
    convert_text_to_abif sha1 (u "jabmod") (dumps_indent 4 (json_of_jabmod m) :: rest) cleanws add_ratings metadata = Ok text /\
    convert_abif_to_jabmod text cleanws2 false false = Ok m2 /\ Permutation (j_votelines m2) ws /\ Forall2 same_votes (j_votelines m) ws /\
    Forall2 (fun v w => forall c, rating_on w c = rating_on v c) (j_votelines m) ws).
Proof.
  intros sha1 m rest cw ar md Hs.
  assert (E : convert_text_to_abif sha1 (u "jabmod") (dumps_indent 4 (json_of_jabmod m) :: rest) cw ar md = convert_jabmod_to_abif m).
  { destruct (C64_jabmod m Hs) as (j&E1&E2). unfold convert_text_to_abif, blob. cbn [nth_error of_option bind].
    eval_fmt.
    rewrite E1. cbn [bind]. unfold as_jabmod. rewrite (named_loads j m E2). reflexivity. }
  split; [exact E|]. intros Hw cw2. rewrite E. destruct (file_roundtrip m cw2 false Hw) as (text&m2&ws&m0&E1&E2&F1&(ls&El&_&Els)&_). specialize (Els eq_refl). subst ls.
  exists text, m2, ws. split; [exact E1|]. split; [exact E2|]. split; [rewrite El; apply sort_desc_perm|].
  split; refine (Forall2_mono _ _ _ _ _ F1); intros v w (H1&H2&_); assumption.
Qed.
Print Assumptions C65_jabmod.

(** ** PrefLib files and tally sheets *)
(** The voteline stands for [qty] ballots listing the candidates of the tiers and nobody else, and preferring those
    of an earlier tier to those of a later one and all of them to the rest. *)
Definition orders (qty : N) (tiers : list (list str)) (v : voteline) : Prop :=
  v_qty v = Z.of_N qty /\ (forall c, lists v c = true <-> In c (concat tiers)) /\
  forall a b, prefers v a b = match tier_rank tiers a, tier_rank tiers b with Some x, Some y => x <? y | Some _, None => true | None, _ => false end.

Lemma tiers_orders qty tiers v w : votes_tiers qty tiers v -> same_votes v w -> orders qty tiers w.
Proof.
  intros (V1&V2&V3) (S1&S2&S3). split; [congruence|]. split.
  - intro c. rewrite S2, <- V3. unfold lists. split.
    + destruct (dget c (v_prefs v)) as [p|] eqn:E; [intros _; exact (in_map fst _ _ (dget_In _ _ _ E))|discriminate].
    + intro H. apply dget_Some_In in H as [p ->]. reflexivity.
  - intros a b0. rewrite S3. unfold prefers. rewrite !V2. reflexivity.
Qed.
Lemma unrated_agree v : (forall c p, dget c (v_prefs v) = Some p -> p_rating p = None) -> NoDup (dkeys (v_prefs v)) -> ratings_agree v.
Proof.
  intros H Hn Hr c c' p p' k k' H1. exfalso. apply (Hr c p H1). apply (H c p). apply dget_In_nodup; assumption.
Qed.
(** Rereading what was written of a model known up to the order of its votelines. *)
Lemma rewritten {X} (P : X -> voteline -> Prop) (xs : list X) m vs cw2 : writable m -> Permutation (j_votelines m) vs -> Forall2 P xs vs ->
  exists text m2 ws, convert_jabmod_to_abif m = Ok text /\ convert_abif_to_jabmod text cw2 false false = Ok m2 /\
    Permutation (j_votelines m2) ws /\ Forall2 (fun x w => exists v, P x v /\ same_votes v w) xs ws.
Proof.
  intros Hw Hp F. destruct (file_roundtrip m cw2 false Hw) as (text&m2&ws&m0&E1&E2&F1&(ls&El&_&Els)&_). specialize (Els eq_refl). subst ls.
  assert (F2 : Forall2 same_votes (j_votelines m) ws) by (refine (Forall2_mono _ _ _ _ _ F1); intros v w (H1&_); assumption).
  destruct (Permutation_Forall2 Hp F2) as (ws'&Hp'&F3). exists text, m2, ws'. split; [exact E1|]. split; [exact E2|]. split.
  - rewrite El. eapply Permutation_trans; [apply sort_desc_perm|exact Hp'].
  - refine (Forall2_compose _ _ _ _ _ _ _ F F3). intros x v w H1 H2. exists v. auto.
Qed.
Lemma pl_token_writable name : import_name name -> forallb scalar name = true -> writable_token (without_spaces name).
Proof.
  intros (H1&H2&H3) Hs. split; [exact H2|]. right. rewrite forallb_forall in H1, Hs.
  assert (Hin : forall c, In c (without_spaces name) -> In c name) by (intros c Hc; apply filter_In in Hc; apply Hc).
  split; [split; [exact H2|split; [|exact H3]]|split].
  - apply forallb_forall. intros c Hc. apply (import_char_facts c), H1, Hin, Hc.
  - apply has_none. intros c Hc. apply (import_char_facts c), H1, Hin, Hc.
  - apply forallb_forall. intros c Hc. apply Hs, Hin, Hc.
Qed.

Theorem C65_preflib : forall sha1 ls rest cleanws add_ratings metadata cleanws2, (forall l, In l ls -> pl_ok l) -> numbered ls ->
  (forall q tiers, In (q, tiers) (pl_rankings ls) -> NoDup (concat tiers) /\ (forall n, In n (concat tiers) -> in_range ls n)) ->
  pl_rankings ls <> [] ->
  (forall name, In name (pl_names ls) -> import_name name /\ forallb scalar name = true) -> NoDup (map without_spaces (pl_names ls)) ->
  exists text m2 ws, convert_text_to_abif sha1 (u "preflib") (pl_file ls :: rest) cleanws add_ratings metadata = Ok text /\
    convert_abif_to_jabmod text cleanws2 false false = Ok m2 /\
    Permutation (j_votelines m2) ws /\
    Forall2 (fun r v => orders (fst r) (map (map (token_of_number ls)) (snd r)) v) (pl_rankings ls) ws /\
    (forall name, In name (pl_names ls) -> simple (without_spaces name) = true -> dget (without_spaces name) (j_candidates m2) = Some name).
Proof.
  intros sha1 ls rest cw ar md cw2 H1 H2 H3 H4 H5 H6.
  destruct (C49_end_to_end ls false false H1 H2 H3 H4 (fun n Hn => proj1 (H5 n Hn)) H6) as (raw&m&vs&E1&E2&Ec&P&F&_&Hr). specialize (Hr eq_refl).
  assert (Hw : writable m).
  { apply (parsed_writable raw false false m E2).
    - intros t Ht. unfold cands in Ht. rewrite Ec, map_map in Ht. apply in_map_iff in Ht as (name&<-&Hin). cbn [fst]. apply pl_token_writable; apply H5, Hin.
    - intros v Hv. apply unrated_agree.
      + intros c p. apply (Hr v c p). exact (Permutation_in _ P Hv).
      + destruct (parsed_line _ _ _ _ _ _ E2 Hv) as ((_&Hn&_)&_). exact Hn. }
  destruct (rewritten _ _ m vs cw2 Hw P F) as (text&m2&ws&W1&W2&W3&W4). exists text, m2, ws.
  assert (Et : convert_text_to_abif sha1 (u "preflib") (pl_file ls :: rest) cw ar md = convert_jabmod_to_abif m).
  { unfold convert_text_to_abif, blob. cbn [nth_error of_option bind].
    eval_fmt.
    rewrite E1. cbn [bind]. rewrite E2. reflexivity. }
  rewrite Et. split; [exact W1|]. split; [exact W2|]. split; [exact W3|]. split.
  - refine (Forall2_mono _ _ _ _ _ W4). intros r w (v&V&S). exact (tiers_orders _ _ v w V S).
  - intros name Hin Hs. destruct (C39_abif_roundtrip m cw2 false Hw) as (text'&m'&T1&T2&_&_&T3&_). rewrite W1 in T1. apply ok_inj in T1. subst text'. rewrite W2 in T2. apply ok_inj in T2. subst m'.
    apply T3; [exact Hs|]. rewrite Ec. apply dget_In_nodup; [unfold dkeys; rewrite map_map; exact H6|]. apply in_map_iff. exists name. auto.
Qed.
Print Assumptions C65_preflib.

Lemma letter_digit_safe c : letter_digit c = true -> always_safe c = true.
Proof. unfold letter_digit, always_safe, inr. intro H. lia. Qed.
Lemma abbreviation_simple name : abbreviation name <> [] -> simple (abbreviation name) = true /\ writable_token (abbreviation name).
Proof.
  intro H. assert (S : simple (abbreviation name) = true).
  { apply forallb_forall. intros c Hc. apply letter_digit_safe. unfold abbreviation in Hc. destruct (str_eqb _ _).
    - vm_compute in Hc. repeat destruct Hc as [<-|Hc]; try reflexivity. destruct Hc.
    - apply firstn_In in Hc. apply filter_In in Hc. apply Hc. }
  split; [exact S|]. split; [exact H|left; exact S].
Qed.

Theorem C65_debtally : forall sha1 ls rest cleanws add_ratings metadata cleanws2, (forall l, In l ls -> deb_ok l) ->
  (forall v, In v (deb_votes ls) -> (length (fst v) <= length (deb_names ls))%nat) -> deb_votes ls <> [] ->
  (forall name, In name (deb_names ls) -> nota_free name /\ abbreviation name <> [] /\ forall c, In c name -> c <> 93%N /\ c <> 35%N) ->
  NoDup (map abbreviation (deb_names ls)) -> (forall kx, In kx metadata -> plain_meta kx) -> NoDup (map fst metadata) ->
  exists text m2 ws, convert_text_to_abif sha1 (u "debtally") (deb_sheet ls :: rest) cleanws add_ratings metadata = Ok text /\
    convert_abif_to_jabmod text cleanws2 false false = Ok m2 /\
    j_candidates m2 = map (fun name => (abbreviation name, name)) (deb_names ls) /\
    Permutation (j_votelines m2) ws /\
    Forall2 (fun dv v => orders 1 (vote_tiers_of (map abbreviation (deb_names ls)) (fst dv)) v) (deb_votes ls) ws /\
    total_ballots m2 = Z.of_nat (length (deb_votes ls)) /\
    forall k x, In (k, x) metadata -> dget k (j_metadata m2) = Some (JStr x).
Proof.
  intros sha1 ls rest cw ar md cw2 H1 H2 H3 H4 H5 H6 H7.
  assert (Hol : forall k x, In (k, x) md -> one_line k /\ one_line x).
  { intros k x Hin. destruct (H6 _ Hin) as [(_&n&E)|(_&Ho&_&_&_&s&E&_&Hs)]; cbn [fst snd] in *; [discriminate|]. injection E as <-. split; [exact Ho|].
    apply printable_line. apply forallb_forall. intros c Hc. rewrite forallb_forall in Hs. specialize (Hs c Hc). apply andb_prop in Hs. apply Hs. }
  destruct (C46_end_to_end sha1 ls md false false H1 H2 H3 H4 H5 Hol) as (raw&m&vs&E1&E2&Ec&P&F&_&Hr&Hmd). specialize (Hr eq_refl). specialize (Hmd eq_refl H6 H7).
  assert (Hs : forall c, In c (cands m) -> simple c = true).
  { intros t Ht. unfold cands in Ht. rewrite Ec, map_map in Ht. apply in_map_iff in Ht as (name&<-&Hin). cbn [fst]. apply abbreviation_simple. apply H4, Hin. }
  assert (Hw : writable m).
  { apply (parsed_writable raw false false m E2).
    - intros t Ht. unfold cands in Ht. rewrite Ec, map_map in Ht. apply in_map_iff in Ht as (name&<-&Hin). cbn [fst]. apply abbreviation_simple. apply H4, Hin.
    - intros v Hv. apply unrated_agree.
      + intros c p. apply (Hr v c p). exact (Permutation_in _ P Hv).
      + destruct (parsed_line _ _ _ _ _ _ E2 Hv) as ((_&Hn&_)&_). exact Hn. }
  destruct (rewritten _ _ m vs cw2 Hw P F) as (text&m2&ws&W1&W2&W3&W4). exists text, m2, ws.
  assert (Et : convert_text_to_abif sha1 (u "debtally") (deb_sheet ls :: rest) cw ar md = convert_jabmod_to_abif m).
  { unfold convert_text_to_abif, blob. cbn [nth_error of_option bind]. eval_fmt. rewrite E1. cbn [bind]. rewrite E2. reflexivity. }
  assert (Hmn : NoDup (map fst (j_metadata m))).
  { destruct (convert_votes _ _ _ _ _ E2) as (?&?&?&_&_&_&_&_&_&_&_&Hmn&_). exact Hmn. }
  rewrite Et. split; [exact W1|]. split; [exact W2|]. split; [|split; [exact W3|split; [|split]]].
  - rewrite <- Ec. apply (C39_same_table m cw2 false text m2 Hw Hs); [|exact W1|exact W2].
    intros v c Hv Hl. destruct (parsed_line _ _ _ _ _ _ E2 Hv) as ((_&_&Hi&_)&_). apply Hi. unfold lists in Hl. destruct (dget c (v_prefs v)) as [p|] eqn:Ep; [|discriminate]. exact (in_map fst _ _ (dget_In _ _ _ Ep)).
  - refine (Forall2_mono _ _ _ _ _ W4). intros r w (v&(V&_)&S). exact (tiers_orders _ _ v w V S).
  - unfold total_ballots. rewrite (zsum_perm _ _ (Permutation_map v_qty W3)). clear - W4.
    induction W4 as [|r w l l' (v&((V&_)&_)&(S&_)) F' IH]; [reflexivity|]. cbn [map zsum length]. rewrite S, V, IH. lia.
  - intros k x Hin. assert (Hk : k <> k_ballotcount).
    { destruct (H6 _ Hin) as [(_&n&E)|(_&_&_&Hn&_)]; cbn [fst snd] in *; [discriminate|exact Hn]. }
    apply (C39_metadata m cw2 text m2 Hw); [|exact Hmn|exact W1|exact W2|exact Hk|].
    + intros k' j Hj. apply (dget_In_nodup _ _ _ Hmn) in Hj. destruct (str_eqb_spec k' k_ballotcount) as [->|Hk'].
      * left. split; [reflexivity|]. rewrite (C28_ballotcount _ _ _ _ _ E2) in Hj. apply some_inj in Hj. subst j. cbn [snd]. eauto.
      * rewrite Hmd in Hj by exact Hk'. destruct (dget k' md) as [x'|] eqn:Ex; [|discriminate]. apply some_inj in Hj. subst j. exact (H6 _ (dget_In _ _ _ Ex)).
    + rewrite Hmd by exact Hk. rewrite (dget_In_nodup k x md H7 Hin). reflexivity.
Qed.
Print Assumptions C65_debtally.

(** ** San Francisco files *)
Lemma underscores_ne s : forall b, alnum (hd 0%N s) = true \/ b = false -> s <> [] -> underscores b s <> [].
Proof. intros b H Hs. destruct s as [|c r]; [congruence|]. cbn [underscores hd] in *. destruct (alnum c); [discriminate|]. destruct H as [H|H]; [discriminate|]. subst b. discriminate. Qed.
Lemma sf_token_ne s : s <> [] -> sf_short_token s <> [].
Proof.
  intro H. unfold sf_short_token. destruct (_ && _); [exact H|]. pose proof (underscores_ne s false (or_intror eq_refl) H) as Hu.
  destruct (underscores false s) as [|c r]; [congruence|]. cbn [sub_write_in]. destruct (is_prefix k_write_in (c :: r)); discriminate.
Qed.
Lemma alnum_safe c : alnum c = true -> always_safe c = true.
Proof. exact (letter_digit_safe c). Qed.
Lemma sf_token_simple s : ~ In 10%N s -> simple (sf_short_token s) = true.
Proof.
  intro H. apply forallb_forall. intros c Hc. apply sf_token_chars in Hc as [Hc|[->|(_&Hc)]]; [apply alnum_safe, Hc|reflexivity|contradiction].
Qed.
Lemma digits_simple n : simple (u "cand" ++ n2s n) = true.
Proof.
  apply forallb_forall. intros c Hc. apply in_app_or in Hc as [Hc|Hc].
  - vm_compute in Hc. repeat destruct Hc as [<-|Hc]; try reflexivity. destruct Hc.
  - pose proof (n2s_ascii n) as Hd. rewrite forallb_forall in Hd. specialize (Hd c Hc). apply letter_digit_safe. unfold ascii_digit in Hd. unfold letter_digit. lia.
Qed.
Definition sound_name (o : option str) : Prop := match o with Some n => forall c, In c n -> is_linebreak c = false /\ c <> 35%N /\ c <> 93%N | None => True end.
Lemma cand_table_sound pool : forall n t, (forall i o, In (i, o) pool -> sound_name o) ->
  (NoDup (dkeys t) /\ forall k o, In (k, o) t -> simple k = true /\ sound_name o) ->
  NoDup (dkeys (cand_table n pool t)) /\ forall k o, In (k, o) (cand_table n pool t) -> simple k = true /\ sound_name o.
Proof.
  induction pool as [|[i o] pool IH]; intros n t Hp Ht; [exact Ht|]. cbn [cand_table]. apply IH; [intros i' o' H'; apply (Hp i' o'); right; exact H'|].
  destruct Ht as (T1&T2). split; [apply NoDup_dset, T1|]. intros k o' Hin. apply In_dset in Hin as [(->&->)|Hin]; [|exact (T2 k o' Hin)].
  pose proof (Hp i o (or_introl eq_refl)) as Ho. split; [|exact Ho]. destruct o as [[|c r]|]; cbn [truthy]; try apply digits_simple.
  apply sf_token_simple. intro H. destruct (Ho _ H) as (H1&_). discriminate H1.
Qed.
Lemma strip_In s c : In c (strip s) -> In c s.
Proof.
  intro H. unfold strip in H. destruct (rstrip_prefix (lstrip s)) as (b0&E&_). destruct (lstrip_suffix s) as (a&E'&_). rewrite E'. apply in_or_app. right. rewrite E. apply in_or_app. left; exact H.
Qed.
Lemma chars_In a b0 l c : In c (strip (chars a b0 l)) -> In c l.
Proof.
  intro H. apply strip_In in H. unfold chars in H. apply firstn_In in H. rewrite <- (firstn_skipn (N.to_nat a) l). apply in_or_app. right; exact H.
Qed.
Lemma named_sound ls i o : named ls i = Some o -> (forall x, In x ls -> lk_type x = u "Candidate" -> sound_name (Some (lk_desc x))) -> sound_name o.
Proof.
  rewrite named_last. intros E H. assert (G : forall n, last_desc ls i = Some n -> sound_name (Some n)).
  { clear E. induction ls as [|x ls IH]; intros n E; [discriminate|]. cbn [last_desc] in E. destruct (last_desc ls i) as [n'|] eqn:El.
    - injection E as <-. apply IH; [|reflexivity]. intros y Hy. apply H. right; exact Hy.
    - destruct (str_eqb (lk_type x) (u "Candidate") && str_eqb (lk_id x) i) eqn:Ex; [|discriminate]. apply andb_prop in Ex as (Ex&_). apply str_eqb_eq in Ex. injection E as <-. apply H; [left; reflexivity|exact Ex]. }
  destruct (last_desc ls i) as [n|]; [injection E as <-; apply G; reflexivity|]. destruct (str_eqb i _); [|discriminate]. injection E as <-. exact I.
Qed.

Lemma letter_digit_value c : letter_digit c = true -> value_char c && printable c = true.
Proof.
  intro H. assert (B : (c < 256)%N) by (unfold letter_digit in H; lia). pose (P := fun c => negb (letter_digit c) || (value_char c && printable c)).
  assert (HP : P c = true) by (apply all_bytes; [vm_compute; reflexivity|exact B]). unfold P in HP. rewrite H in HP. exact HP.
Qed.
(** Acceptable files whose candidates' names are free of # and ] are converted to ABIF, and the ABIF text read again
    gives as many ballots as there are voters, and every comparison of candidates the answer of the voters. *)
Theorem C65_sftxt : forall sha1 master ballots contest rest cleanws add_ratings metadata cleanws2, acceptable master ballots contest ->
  (forall x, In x (map lookup_of (splitlines master)) -> lk_type x = u "Candidate" -> forall c, In c (lk_desc x) -> c <> 35%N /\ c <> 93%N) ->
  exists text m2 gs vs, convert_text_to_abif sha1 (u "sftxt") (master :: ballots :: rest) cleanws add_ratings metadata = Ok text /\
    convert_abif_to_jabmod text cleanws2 false false = Ok m2 /\
    ballots_of (mine contest (map image_of (splitlines ballots))) gs /\
    Forall2 (line_of_group (named (map lookup_of (splitlines master))) false) gs vs /\
    total_ballots m2 = Z.of_nat (length gs) /\
    (forall a b, votes_over m2 a b = ballots_where (fun v => prefers v a b) vs) /\
    (forall c, ballots_where (fun v => lists v c) (j_votelines m2) = ballots_where (fun v => lists v c) vs) /\
    (contest <> [] -> forallb letter_digit contest = true -> dget (u "contestid") (j_metadata m2) = Some (JStr contest)).
Proof.
  intros sha1 master ballots contest rest cw ar md cw2 A Hn. destruct (C51_ballots_counted master ballots contest false A) as (sm&E&C).
  destruct A as (H1&H2&H3&H4&H5).
  pose proof E as E0. unfold convert_sftxt_to_jabmod in E0. rewrite master_read in E0 by exact H1. cbn [bind] in E0. destruct (pool_of (splitlines master) H1) as (pool&P1&P2&P3). rewrite P1 in E0. cbn [bind] in E0.
  apply first_id_contest in H3. rewrite H3 in E0. rewrite ballots_read in E0; [|apply (mine_nonempty contest), H4|exact H2].
  destruct (C50_grouped pool contest (map image_of (splitlines ballots))) as (gs0&bs&Eb&B0&F0); [apply (good_votes pool _ contest _ P3), H5|exact H4|].
  rewrite Eb in E0. cbn [bind] in E0. destruct (ballot_lines pool false gs0 bs F0) as (vs0&Ev&Fv). rewrite Ev in E0. cbn [bind] in E0. apply ok_inj in E0.
  set (mdata := dset k_ballotcount (JInt (Z.of_nat (length vs0))) (dset (u "contestid") (JStr contest) (j_metadata emptyish))) in *.
  assert (Em : j_metadata (jabmod_of_sf sm) = mdata) by (rewrite <- E0; reflexivity).
  assert (Hc : clean (Jabmod mdata [] vs0)).
  { intros w Hw. cbn [j_votelines] in Hw. clear - Fv Hw. induction Fv as [|g x gs vs H F IH]; [destruct Hw|]. destruct Hw as [<-|Hw]; [apply (group_line_clean _ _ _ _ H)|apply IH, Hw]. }
  assert (El : j_votelines (jabmod_of_sf sm) = map (fun v => vl (ballots_where (fun w => same_line v w) vs0) (v_prefs v)) (first_of_each vs0)).
  { rewrite <- E0. unfold jabmod_of_sf. cbn [sf_votelines j_votelines]. rewrite (C44_exact _ Hc). reflexivity. }
  assert (Hpool : forall i o, In (i, o) pool -> sound_name o).
  { intros i o Hin. apply (dget_In_nodup _ _ _ P2) in Hin. rewrite P3 in Hin. apply (named_sound _ _ _ Hin). intros x Hx Ht c Hcx. split; [|apply (Hn x Hx Ht c Hcx)].
    apply in_map_iff in Hx as (l&<-&Hl). cbn [lookup_of lk_desc] in Hcx. apply chars_In in Hcx. exact (splitlines_one_line master l Hl c Hcx). }
  destruct (cand_table_sound pool 0 [] Hpool (conj (NoDup_nil _) (fun k o (H : In (k, o) []) => match H with end))) as (T1&T2).
  assert (Ec : j_candidates (jabmod_of_sf sm) = map (fun kn => (fst kn, match snd kn with Some n => n | None => u "None" end)) (cand_table 0 pool [])) by (rewrite <- E0; reflexivity).
  assert (Hline : forall v, In v vs0 -> NoDup (map fst (v_prefs v)) /\ v_qty v = 1 /\ forall c p, In (c, p) (v_prefs v) -> simple c = true /\ c <> [] /\ exists r, p = ranked r).
  { intros v Hv. destruct (proj2 (Forall2_In _ _ _ Fv) v Hv) as (g&_&(Q1&Q2&Q3)). split; [exact Q2|]. split; [exact Q1|]. intros c p Hin. apply (dget_In_nodup _ _ _ Q2) in Hin.
    apply Q3 in Hin as (b1&x&a1&r&_&Et&_&->&_). unfold token_on in Et. destruct (dget (im_cand x) pool) as [[[|c0 cr]|]|] eqn:Ed; try discriminate Et. apply some_inj in Et. subst c.
    split; [|split; [apply sf_token_ne; discriminate|eauto]]. apply sf_token_simple. intro H. destruct (Hpool _ _ (dget_In _ _ _ Ed) _ H) as (H'&_). discriminate H'. }
  assert (Hw : writable (jabmod_of_sf sm)).
  { split; [|split; [|split; [|split]]].
    - rewrite El. destruct vs0 as [|v0 vs0']; [|discriminate]. exfalso. inversion Fv as [E1 E2|]; subst. destruct B0 as (B0&_). apply H4. rewrite <- B0. reflexivity.
    - intros v Hv. rewrite El in Hv. apply in_map_iff in Hv as (w&<-&Hw). apply foe_incl in Hw. destruct (Hline w Hw) as (L1&L2&L3).
      split; [|split; [exact L1|split]].
      + cbn [v_qty vl]. unfold ballots_where. clear - Hline. induction vs0 as [|x vs0 IH]; [reflexivity|]. cbn [map zsum].
        destruct (Hline x (or_introl eq_refl)) as (_&Hq&_). specialize (IH (fun y Hy => Hline y (or_intror Hy))). destruct (same_line w x); rewrite ?Hq; lia.
      + cbn [v_prefs vl]. intros c p Hin. destruct (L3 c p Hin) as (S1&S2&r&->). split; [split; [exact S2|left; exact S1]|]. split; [discriminate|]. intros r' Er. discriminate Er.
      + cbn [v_prefs vl]. intros Hr c c' p p' k k' Hin. exfalso. destruct (L3 c p Hin) as (_&_&r&->). apply (Hr c _ Hin). reflexivity.
    - unfold cands. rewrite Ec, map_map. cbn [fst]. exact T1.
    - intros t n Hin. rewrite Ec in Hin. apply in_map_iff in Hin as ((k&o)&E1&Hin). cbn [fst snd] in E1. injection E1 as <- <-. destruct (T2 k o Hin) as (S1&S2). split; [left; exact S1|].
      destruct o as [n|]; [exact S2|]. apply name_chars. vm_compute. reflexivity.
    - rewrite Em. intros k j Hin. vm_compute in Hin. destruct Hin as [Hin|[Hin|[]]]; injection Hin as <- <-; apply one_lineb; vm_compute; reflexivity. }
  destruct (file_roundtrip _ cw2 false Hw) as (text&m2&ws&m0&W1&W2&_).
  destruct C as (gs&vs&B&F&_&_&Q1&_&Q2). exists text, m2, gs, vs.
  assert (Et : convert_text_to_abif sha1 (u "sftxt") (master :: ballots :: rest) cw ar md = convert_jabmod_to_abif (jabmod_of_sf sm)).
  { unfold convert_text_to_abif, blob. cbn [nth_error of_option bind]. eval_fmt. rewrite E. reflexivity. }
  destruct (C39_same_counts _ cw2 false text m2 Hw W1 W2) as (K1&K2&K3).
  rewrite Et. split; [exact W1|]. split; [exact W2|]. split; [exact B|]. split; [exact F|]. split; [|split; [|split]].
  - rewrite K1. exact Q1.
  - intros a b0. rewrite K2. apply (Q2 (fun v => prefers v a b0)). intros v w Hvw. unfold prefers, rank_on. rewrite !Hvw. reflexivity.
  - intro c. rewrite K3. apply (Q2 (fun v => lists v c)). intros v w Hvw. unfold lists. rewrite Hvw. reflexivity.
  - intros Hc0 Hcd. assert (Emd : mdata = [(k_ballotcount, JInt (Z.of_nat (length vs0))); (u "contestid", JStr contest)]) by reflexivity.
    apply (C39_metadata _ cw2 text m2 Hw); [| |exact W1|exact W2|discriminate|rewrite Em, Emd; reflexivity].
    + rewrite Em, Emd. intros k j [Hin|[Hin|[]]]; injection Hin as <- <-.
      * left. split; [reflexivity|]. cbn [snd]. eauto.
      * right. cbn [fst snd]. split; [split; [discriminate|split; [vm_compute; reflexivity|reflexivity]]|]. split; [apply one_lineb; vm_compute; reflexivity|].
        split; [vm_compute; intuition discriminate|]. split; [discriminate|]. split; [discriminate|]. exists contest. split; [reflexivity|]. split; [exact Hc0|].
        apply forallb_forall. intros c Hin. rewrite forallb_forall in Hcd. specialize (Hcd c Hin). apply letter_digit_value. exact Hcd.
    + rewrite Em, Emd. nodup.
Qed.
Print Assumptions C65_sftxt.

(** ** The theorems apply *)
Definition no_hash : hash := fun _ => [].
Example C65_formats_nonvacuous : ~ In (u "nameq") converted_formats /\ ~ In (u "winlosstiejson") converted_formats.
Proof. split; vm_compute; intuition discriminate. Qed.
Example C65_preflib_nonvacuous : exists text m2, convert_text_to_abif no_hash (u "preflib") [pl_file pl_demo] false false [] = Ok text /\
  convert_abif_to_jabmod text true false false = Ok m2 /\ length (j_votelines m2) = 3%nat /\ dget (u "BobKiss") (j_candidates m2) = Some (u "Bob Kiss").
Proof.
  destruct pl_demo_ok as (H1&H2&H3). destruct C49_nonvacuous as (N1&N2&_).
  destruct (C65_preflib no_hash pl_demo [] false false [] true H1 H2) as (text&m2&ws&E1&E2&P&F&T).
  - intros q tiers Hin. split; [|intros n Hn; apply in_concat in Hn as (t&Ht&Hn); exact (H3 q tiers t n Hin Ht Hn)]. cbn in Hin. destruct Hin as [E|[E|[E|[]]]]; injection E as <- <-; repeat constructor; cbn; intuition discriminate.
  - discriminate.
  - intros name Hn. split; [exact (N1 name Hn)|]. repeat destruct Hn as [<-|Hn]; try destruct Hn; vm_compute; reflexivity.
  - exact N2.
  - exists text, m2. split; [exact E1|]. split; [exact E2|]. split.
    + rewrite (Permutation_length P), <- (Forall2_len _ _ _ F). reflexivity.
    + apply (T (u "Bob Kiss")); [left; reflexivity|vm_compute; reflexivity].
Qed.
Example C65_debtally_nonvacuous : exists text m2, convert_text_to_abif no_hash (u "debtally") [deb_sheet deb_demo] false false [(u "title", u "Demo")] = Ok text /\
  convert_abif_to_jabmod text true false false = Ok m2 /\ total_ballots m2 = 2 /\ dget (u "title") (j_metadata m2) = Some (JStr (u "Demo")).
Proof.
  destruct deb_demo_names as (N1&N2).
  destruct (C65_debtally no_hash deb_demo [] false false [(u "title", u "Demo")] true deb_demo_ok) as (text&m2&ws&E1&E2&_&_&_&T&M).
  - intros v [<-|[<-|[]]]; vm_compute; lia.
  - discriminate.
  - exact N1.
  - exact N2.
  - intros kx [<-|[]]. right. cbn [fst snd]. split; [split; [discriminate|split; [vm_compute; reflexivity|reflexivity]]|]. split; [apply one_lineb; vm_compute; reflexivity|].
    split; [vm_compute; intuition discriminate|]. split; [discriminate|]. split; [discriminate|]. eexists. split; [reflexivity|]. split; [discriminate|]. vm_compute. reflexivity.
  - nodup.
  - exists text, m2. split; [exact E1|]. split; [exact E2|]. split; [exact T|]. apply M. left; reflexivity.
Qed.
Example C65_sftxt_nonvacuous : exists text m2, convert_text_to_abif no_hash (u "sftxt") [sf_master; sf_file] false false [] = Ok text /\
  convert_abif_to_jabmod text true false false = Ok m2 /\ dget (u "contestid") (j_metadata m2) = Some (JStr (u "0000020")) /\
  text = unlines [u "#------- metadata -------"; u "{ballotcount: 3}"; u "{contestid: ""0000020""}"; u "#------ candlines ------";
    u "=cand0:[None]"; u "=MARK_LENO:[MARK LENO]"; u "=JANE_KIM:[JANE KIM]"; u "#------- votelines ------"; u "2:MARK_LENO>JANE_KIM"; u "1:JANE_KIM>MARK_LENO"].
Proof.
  destruct (C65_sftxt no_hash sf_master sf_file (u "0000020") [] false false [] true C51_accepts) as (text&m2&gs&vs&E1&E2&_&_&_&_&_&M).
  - intros x Hx _. assert (G : forallb (fun x => forallb (fun c => negb (N.eqb c 35) && negb (N.eqb c 93)) (lk_desc x)) (map lookup_of (splitlines sf_master)) = true) by (vm_compute; reflexivity).
    intros c Hc. rewrite forallb_forall in G. specialize (G x Hx). rewrite forallb_forall in G. specialize (G c Hc). lia.
  - exists text, m2. split; [exact E1|]. split; [exact E2|]. split; [apply M; [discriminate|vm_compute; reflexivity]|]. vm_compute in E1. apply ok_inj in E1. subst text. vm_compute. reflexivity.
Qed.
Example C65_jabmod_nonvacuous : storable rt_sample /\ writable rt_sample.
Proof.
  split; [|exact rt_sample_writable]. constructor.
  - repeat constructor; cbn; intros H; cases H; discriminate H.
  - intros c n H. cbn in H; cases H; injection H as <- <-; split; reflexivity.
  - repeat constructor; cbn; intros H; cases H; discriminate H.
  - intros c n H. cbn in H; cases H; injection H as <- <-; (split; [reflexivity|]); split; try reflexivity; try exact I.
  - intros v H. cbn in H; cases H; subst v; constructor; try exact I; try reflexivity;
      try (repeat constructor; cbn; intros H; cases H; discriminate H);
      intros c p H; cbn in H; cases H; try (injection H as <- <-; repeat split; reflexivity).
Qed.
