(** * PropsJson: C64, the JSON form of a jabmod *)

From Coq Require Import Lia.
From Verif Require Import PyBase PyFacts Jabmod UrlText JsonText JsonFacts JsonParse JsonParseFacts JabmodJson PairwiseModel Spec PairwiseFacts PropsPairwise.
Local Open Scope Z_scope.

Local Ltac cases H := match type of H with _ \/ _ => destruct H as [H|H]; cases H | False => destruct H | _ => idtac end.

(** Unicode text: no surrogates. *)
Definition text (s : str) : Prop := forallb scalar s = true.

(** ** json.loads after json.dumps *)
(** Whatever object is written (its strings being Unicode text and no object having a key twice, as Python's dicts
    never do), with or without indentation, is read back unchanged. *)
Theorem C64_loads_dumps : forall j indent, json_text_ok j = true -> nodup_keys j ->
  json_loads (dumps_indent indent j) = Ok j /\ json_loads (json_dumps j) = Ok j.
Proof.
  intros j indent Ht Hk. split; [apply loads_dumps; assumption|]. rewrite <- (dumps_compact j 0). apply loads_dumps; assumption.
Qed.
Print Assumptions C64_loads_dumps.
(** Any text is either read or refused with ValueError (a float, outside the model, counts as GenericException here). *)
Theorem C64_total : forall s, (exists j, json_loads s = Ok j) \/ json_loads s = Err ValueError \/ json_loads s = Err GenericException.
Proof. exact loads_total. Qed.
Print Assumptions C64_total.

(** ** A jabmod through its JSON file *)
Definition opt_text (o : option str) : Prop := match o with Some s => text s | None => True end.
Definition rating_text (o : option ratingval) : Prop := match o with Some (RStr s) => text s | _ => True end.
(** All strings are Unicode text, and dictionaries have each key once. *)
Record storable_line (v : voteline) : Prop := {
  sl_tokens : NoDup (dkeys (v_prefs v));
  sl_prefs : forall c p, In (c, p) (v_prefs v) -> text c /\ rating_text (p_rating p) /\ match p_nextdelim p with Some d => scalar d = true | None => True end;
  sl_comment : opt_text (v_comment v);
  sl_prefstr : opt_text (v_prefstr v);
  sl_voterid : opt_text (v_voterid v);
  sl_nameq : opt_text (v_nameq v)
}.
Record storable (m : jabmod) : Prop := {
  st_cand_keys : NoDup (dkeys (j_candidates m));
  st_cands : forall c n, In (c, n) (j_candidates m) -> text c /\ text n;
  st_meta_keys : NoDup (dkeys (j_metadata m));
  st_meta : forall k j, In (k, j) (j_metadata m) -> text k /\ json_text_ok j = true /\ nodup_keys j;
  st_lines : forall v, In v (j_votelines m) -> storable_line v
}.

Lemma nodup_arr_intro l : (forall x, In x l -> nodup_keys x) -> nodup_keys (JArr l).
Proof. cbn [nodup_keys]. induction l as [|y r IH]; intro H; [exact I|]. split; [apply H; left; reflexivity|apply IH; intros x Hx; apply H; right; exact Hx]. Qed.
Lemma nodup_obj_intro l : NoDup (map fst l) -> (forall k x, In (k, x) l -> nodup_keys x) -> nodup_keys (JObj l).
Proof.
  intros Hn H. split; [exact Hn|]. clear Hn. induction l as [|[k y] r IH]; [exact I|]. split; [apply (H k); left; reflexivity|apply IH; intros k' x Hx; apply (H k'); right; exact Hx].
Qed.
Lemma text_obj_intro l : (forall k x, In (k, x) l -> text k /\ json_text_ok x = true) -> json_text_ok (JObj l) = true.
Proof. intro H. cbn [json_text_ok]. apply forallb_forall. intros [k x] Hx. destruct (H k x Hx) as (H1&H2). cbn [fst snd]. unfold text in H1. rewrite H1, H2. reflexivity. Qed.
Lemma map_fst_map {A B} (f : str * A -> B) l : map fst (map (fun kv => (fst kv, f kv)) l) = map fst l.
Proof. rewrite map_map. apply map_ext. reflexivity. Qed.
Lemma mapO_map {A B C} (f : A -> B) (g : B -> option C) (h : A -> C) l : (forall x, In x l -> g (f x) = Some (h x)) -> mapO g (map f l) = Some (map h l).
Proof.
  induction l as [|x r IH]; intro H; [reflexivity|]. cbn [map mapO]. rewrite (H x (or_introl eq_refl)), IH; [reflexivity|]. intros y Hy. apply H. right; exact Hy.
Qed.

Lemma pref_json p : pref_of_json (json_of_pref p) = Some p.
Proof. destruct p as [r g d]. destruct r as [r|], g as [[z|s]|], d as [d|]; reflexivity. Qed.
Lemma voteline_json v : voteline_of_json (json_of_voteline v) = Some v.
Proof.
  destruct v as [q ps c p i n]. unfold json_of_voteline. cbn [v_qty v_prefs v_comment v_prefstr v_voterid v_nameq].
  assert (E : mapO (entry pref_of_json) (map (fun cp => (fst cp, json_of_pref (snd cp))) ps) = Some ps).
  { rewrite (mapO_map _ _ (fun x => x)); [rewrite map_id; reflexivity|]. intros [k x] _. unfold entry. cbn [fst snd]. rewrite pref_json. reflexivity. }
  revert E. generalize (map (fun cp : str * pref => (fst cp, json_of_pref (snd cp))) ps). intros l E.
  destruct c as [c|], p as [p|], i as [i|], n as [n|]; match goal with |- _ = Some (Voteline _ _ ?a ?b ?d ?e) => change (match mapO (entry pref_of_json) l with Some prefs => Some (Voteline q prefs a b d e) | None => None end = Some (Voteline q ps a b d e)) end; rewrite E; reflexivity.
Qed.
Lemma jabmod_json m : jabmod_of_json (json_of_jabmod m) = Some m.
Proof.
  destruct m as [md cs vs]. unfold json_of_jabmod. cbn [j_metadata j_candidates j_votelines].
  assert (E1 : mapO (entry str_of_json) (map (fun kv => (fst kv, JStr (snd kv))) cs) = Some cs).
  { rewrite (mapO_map _ _ (fun x => x)); [rewrite map_id; reflexivity|]. intros [k x] _. reflexivity. }
  assert (E2 : mapO voteline_of_json (map json_of_voteline vs) = Some vs).
  { rewrite (mapO_map _ _ (fun x => x)); [rewrite map_id; reflexivity|]. intros v _. apply voteline_json. }
  revert E1 E2. generalize (map json_of_voteline vs) as lv. generalize (map (fun kv : str * str => (fst kv, JStr (snd kv))) cs) as lc. intros lc lv E1 E2.
  change (match mapO (entry str_of_json) lc, mapO voteline_of_json lv with Some a, Some b => Some (Jabmod md a b) | _, _ => None end = Some (Jabmod md cs vs)). rewrite E1, E2. reflexivity.
Qed.

Lemma json_pref_ok p : rating_text (p_rating p) -> match p_nextdelim p with Some d => scalar d = true | None => True end -> json_text_ok (json_of_pref p) = true /\ nodup_keys (json_of_pref p).
Proof.
  destruct p as [r g d]. cbn [p_rating p_nextdelim]. intros Hg Hd.
  assert (K : forall a b c, nodup_keys (JObj (opt_entry json_of_rating "rating" a ++ opt_entry JInt "rank" b ++ opt_entry (fun x => JStr [x]) "nextdelim" c))).
  { intros a b c. apply nodup_obj_intro; [destruct a, b, c; repeat constructor; cbn; intros H; cases H; discriminate H|].
    intros k x Hx. destruct a as [[]|], b, c; cbn in Hx; cases Hx; injection Hx as _ <-; exact I. }
  split; [|apply K]. unfold json_of_pref. cbn [p_rating p_rank p_nextdelim]. apply text_obj_intro. intros k x Hx.
  destruct g as [[z|s]|], r as [r|], d as [d|]; cbn in Hx; cases Hx; injection Hx as <- <-; (split; [reflexivity|]); cbn [json_text_ok forallb]; try reflexivity; try exact Hg; rewrite Hd; reflexivity.
Qed.
Lemma json_line_ok v : storable_line v -> json_text_ok (json_of_voteline v) = true /\ nodup_keys (json_of_voteline v).
Proof.
  intros [H1 H2 H3 H4 H5 H6]. set (P := JObj (map (fun cp : str * pref => (fst cp, json_of_pref (snd cp))) (v_prefs v))).
  assert (HP : json_text_ok P = true /\ nodup_keys P).
  { split.
    - apply text_obj_intro. intros k x Hx. apply in_map_iff in Hx as ([c p]&E&Hx). cbn [fst snd] in E. injection E as <- <-. destruct (H2 c p Hx) as (T1&T2&T3). split; [exact T1|]. apply json_pref_ok; assumption.
    - apply nodup_obj_intro.
      + rewrite (map_fst_map (fun cp => json_of_pref (snd cp))). exact H1.
      + intros k x Hx. apply in_map_iff in Hx as ([c p]&E&Hx). cbn [fst snd] in E. injection E as <- <-. destruct (H2 c p Hx) as (T1&T2&T3). apply json_pref_ok; assumption. }
  unfold json_of_voteline. fold P. clearbody P. destruct HP as (P1&P2). destruct v as [q ps c p i n]. cbn [v_comment v_prefstr v_voterid v_nameq v_qty] in *. split.
  - apply text_obj_intro. intros k x Hx. destruct c as [c|], p as [p|], i as [i|], n as [n|]; cbn in Hx; cases Hx; injection Hx as <- <-; (split; [reflexivity|]); cbn [json_text_ok]; try reflexivity; assumption.
  - apply nodup_obj_intro; [destruct c, p, i, n; repeat constructor; cbn; intros H; cases H; discriminate H|].
    intros k x Hx. destruct c as [c|], p as [p|], i as [i|], n as [n|]; cbn in Hx; cases Hx; injection Hx as <- <-; cbn [nodup_keys]; try exact I; exact P2.
Qed.
Lemma json_jabmod_ok m : storable m -> json_text_ok (json_of_jabmod m) = true /\ nodup_keys (json_of_jabmod m).
Proof.
  intros [H1 H2 H3 H4 H5]. unfold json_of_jabmod.
  set (C := JObj (map (fun kv : str * str => (fst kv, JStr (snd kv))) (j_candidates m))). set (M := JObj (j_metadata m)). set (V := JArr (map json_of_voteline (j_votelines m))).
  assert (HC : json_text_ok C = true /\ nodup_keys C).
  { split.
    - apply text_obj_intro. intros k x Hx. apply in_map_iff in Hx as ([c n]&E&Hx). cbn [fst snd] in E. injection E as <- <-. apply (H2 c n Hx).
    - apply nodup_obj_intro; [rewrite (map_fst_map (fun kv => JStr (snd kv))); exact H1|]. intros k x Hx. apply in_map_iff in Hx as ([c n]&E&Hx). injection E as <- <-. exact I. }
  assert (HM : json_text_ok M = true /\ nodup_keys M).
  { split; [apply text_obj_intro; intros k x Hx; destruct (H4 k x Hx) as (T1&T2&_); auto|]. apply nodup_obj_intro; [exact H3|]. intros k x Hx. apply (H4 k x Hx). }
  assert (HV : json_text_ok V = true /\ nodup_keys V).
  { split; [cbn [json_text_ok V]; apply forallb_forall|apply nodup_arr_intro]; intros x Hx; apply in_map_iff in Hx as (v&<-&Hx); apply json_line_ok, H5, Hx. }
  clearbody C M V. destruct HC as (C1&C2), HM as (M1&M2), HV as (V1&V2). split.
  - apply text_obj_intro. intros k x Hx. cbn in Hx. cases Hx; injection Hx as <- <-; (split; [reflexivity|assumption]).
  - apply nodup_obj_intro; [repeat constructor; cbn; intros H; cases H; discriminate H|]. intros k x Hx. cbn in Hx. cases Hx; injection Hx as <- <-; assumption.
Qed.

(** A jabmod written with -t jabmod and read with -f jabmod is the same jabmod. *)
Theorem C64_jabmod : forall m, storable m ->
  exists j, json_loads (dumps_indent 4 (json_of_jabmod m)) = Ok j /\ jabmod_of_json j = Some m.
Proof.
  intros m H. destruct (json_jabmod_ok m H) as (T&K). exists (json_of_jabmod m). split; [apply loads_dumps; assumption|apply jabmod_json].
Qed.
Print Assumptions C64_jabmod.
(** The same for every Python object standing for m, whatever the order of its keys and with nulls for absent
    ones. *)
Theorem C64_jabmod_any_form : forall m j, jabmod_of_json j = Some m -> json_text_ok j = true -> nodup_keys j ->
  exists j', json_loads (dumps_indent 4 j) = Ok j' /\ jabmod_of_json j' = Some m.
Proof. intros m j Hm T K. exists j. split; [apply loads_dumps; assumption|exact Hm]. Qed.
Print Assumptions C64_jabmod_any_form.
(** Two different jabmods never give the same file. *)
Theorem C64_distinct : forall m m', storable m -> storable m' -> dumps_indent 4 (json_of_jabmod m) = dumps_indent 4 (json_of_jabmod m') -> m = m'.
Proof.
  intros m m' H H' E. destruct (C64_jabmod m H) as (j&L&D), (C64_jabmod m' H') as (j'&L'&D'). rewrite E, L' in L. injection L as ->. rewrite D' in D. injection D as ->. reflexivity.
Qed.
Print Assumptions C64_distinct.

Definition jsample : jabmod :=
  Jabmod [(k_ballotcount, JInt 3); (u "title", JArr [JStr (u "a" ++ [8217%N; 128512%N; 10%N; 34%N]); JNull; JBool true; JInt (-12); JObj []])]
    [(A, u "Ann"); (u "b c", u "Bob")]
    [Voteline 2 [(A, Pref (Some 1) (Some (RStr (u "5"))) (Some 62%N)); (u "b c", Pref (Some 2) (Some (RInt 3)) None)] (Some (u "#x")) None (Some (u "v1")) None;
     Voteline 1 [(u "b c", Pref (Some 1) None None)] None (Some (u "b c")) None (Some (u "b+c=1"))].
Example C64_sample : storable jsample /\ json_loads (dumps_indent 4 (json_of_jabmod jsample)) = Ok (json_of_jabmod jsample).
Proof.
  split; [|vm_compute; reflexivity]. constructor.
  - repeat constructor; cbn; intros H; cases H; discriminate H.
  - intros c n H. cbn in H; cases H; injection H as <- <-; split; reflexivity.
  - repeat constructor; cbn; intros H; cases H; discriminate H.
  - intros c n H. cbn in H; cases H; injection H as <- <-; (split; [reflexivity|]); split; try reflexivity; try exact I. cbn. repeat split. constructor.
  - intros v H. cbn in H; cases H; subst v; constructor; try exact I; try reflexivity;
      try (repeat constructor; cbn; intros H; cases H; discriminate H);
      intros c p H; cbn in H; cases H; injection H as <- <-; repeat split; reflexivity.
Qed.

(** ** The printed pairwise counts *)
Definition jmember (k : str) (j : json) : option json := match j with JObj l => dget k l | _ => None end.
Lemma dget_map_json {V} (f : V -> json) k (d : dict V) : dget k (map (fun kv => (fst kv, f (snd kv))) d) = option_map f (dget k d).
Proof. induction d as [|[k' v] r IH]; [reflexivity|]. cbn [map dget fst snd]. destruct (str_eqb k k'); [reflexivity|exact IH]. Qed.
(** The JSON printed for the pairwise counts parses, and holds under [a][b] the number of ballots ranking a above b
    (null on the diagonal). *)
Theorem C64_paircount : forall m pm, tallyable m -> (forall c, In c (cands m) -> text c) -> pairwise_count_dict m = Ok pm ->
  exists j, json_loads (dumps_indent 4 (json_of_pairmat pm)) = Ok j /\
    (exists rows, j = JObj rows /\ map fst rows = cands m) /\
    forall a, In a (cands m) -> exists row, jmember a j = Some row /\
      forall b, In b (cands m) -> jmember b row = Some (if str_eqb a b then JNull else JInt (votes_over m a b)).
Proof.
  intros m pm Hm Ht Ep. destruct Hm as (Hnd&Hl). pose proof (C01_pairwise_exact m (conj Hnd Hl)) as Em. rewrite Ep in Em. injection Em as ->.
  set (f := fun a b => if str_eqb a b then None else Some (votes_over m a b)). exists (json_of_pairmat (matrix (cands m) f)).
  set (cell := fun c : str * option Z => (fst c, match snd c with Some z => JInt z | None => JNull end)).
  assert (Er : json_of_pairmat (matrix (cands m) f) = JObj (map (fun a => (a, JObj (map (fun b => (b, match f a b with Some z => JInt z | None => JNull end)) (cands m)))) (cands m))).
  { unfold json_of_pairmat, matrix. rewrite map_map. f_equal. apply map_ext. intro a. cbn [fst snd]. rewrite map_map. reflexivity. }
  assert (Hk : forall g : str -> json, map fst (map (fun b => (b, g b)) (cands m)) = cands m). { intro g. rewrite map_map. cbn [fst]. apply map_id. }
  assert (G : forall (g : str -> json) a, In a (cands m) -> dget a (map (fun b => (b, g b)) (cands m)) = Some (g a)).
  { intros g a. generalize (cands m). induction l as [|x l IH]; intro H; [destruct H|]. cbn [map dget]. destruct (str_eqb_spec a x) as [->|n]; [reflexivity|]. apply IH. destruct H as [H|H]; [congruence|exact H]. }
  rewrite Er. split; [|split].
  - apply loads_dumps.
    + apply text_obj_intro. intros k x Hx. apply in_map_iff in Hx as (a&E1&Ha). injection E1 as <- <-. split; [apply Ht, Ha|]. apply text_obj_intro. intros k x Hx. apply in_map_iff in Hx as (b&E1&Hb). injection E1 as <- <-. split; [apply Ht, Hb|]. destruct (f a b); reflexivity.
    + apply nodup_obj_intro; [rewrite (Hk (fun a => JObj _)); exact Hnd|]. intros k x Hx. apply in_map_iff in Hx as (a&E1&Ha). injection E1 as <- <-. apply nodup_obj_intro; [rewrite (Hk (fun b => match f a b with Some z => JInt z | None => JNull end)); exact Hnd|]. intros k x Hx. apply in_map_iff in Hx as (b&E1&Hb). injection E1 as <- <-. destruct (f a b); exact I.
  - eexists. split; [reflexivity|]. apply (Hk (fun a => JObj _)).
  - intros a Ha. eexists. split; [cbn [jmember]; rewrite (G (fun a => JObj _) a Ha); reflexivity|]. intros b Hb. cbn [jmember]. rewrite (G (fun b => match f a b with Some z => JInt z | None => JNull end) b Hb). unfold f. destruct (str_eqb a b); reflexivity.
Qed.
Print Assumptions C64_paircount.
Example C64_paircount_sample : dumps_indent 1 (json_of_pairmat [(A, [(A, None); (B, Some 27)])]) =
  u "{" ++ [10%N] ++ u " ""A"": {" ++ [10%N] ++ u "  ""A"": null," ++ [10%N] ++ u "  ""B"": 27" ++ [10%N] ++ u " }" ++ [10%N] ++ u "}".
Proof. vm_compute. reflexivity. Qed.
