(** * ObjReadable: the text of the object that is printed can be read, and is the election *)

From Coq Require Import Lia Permutation.
From Verif Require Import PyBase PyFacts Jabmod PairwiseModel ScoreModel Spec Regex ParserModel ParserSpec WriterModel JsonText JsonFacts JsonParse JsonParseFacts JabmodJson PropsJson ConvertModel UrlText RoundtripParsed ObjModel ObjFacts.
Local Open Scope Z_scope.

(** ** The text can be read *)
Definition readable (j : json) : Prop := json_text_ok j = true /\ nodup_keys j.
Lemma readable_obj l : NoDup (map fst l) -> (forall k x, In (k, x) l -> text k /\ readable x) -> readable (JObj l).
Proof. intros N H. split; [apply text_obj_intro|apply nodup_obj_intro; [exact N|]]; intros k x Hx; destruct (H k x Hx) as (H1&H2&H3); auto. Qed.
Lemma readable_arr l : (forall x, In x l -> readable x) -> readable (JArr l).
Proof. intro H. split; [cbn [json_text_ok]; apply forallb_forall|apply nodup_arr_intro]; intros x Hx; apply (H x Hx). Qed.
Lemma readable_member l k x : readable (JObj l) -> In (k, x) l -> text k /\ readable x.
Proof.
  intros (T&N) Hin. cbn [json_text_ok] in T. apply (proj1 (forallb_forall _ _)) with (x := (k, x)) in T; [|exact Hin]. apply andb_prop in T as (T1&T2). split; [exact T1|]. split; [exact T2|exact (nodup_obj l N k x Hin)].
Qed.
Lemma readable_set l k x : readable (JObj l) -> text k -> readable x -> readable (JObj (dset k x l)).
Proof.
  intros R Tk Rx. apply readable_obj; [apply NoDup_dset; exact (proj1 (proj2 R))|]. intros k' x' Hin. apply In_dset in Hin as [(->&->)|Hin]; [auto|]. exact (readable_member l k' x' R Hin).
Qed.
Lemma readable_lines l vs : readable (JObj l) -> (forall x, In x vs -> readable x) -> readable (JObj (dset (u "votelines") (JArr vs) l)).
Proof. intros R H. apply readable_set; [exact R|reflexivity|apply readable_arr, H]. Qed.
Lemma arranged_ok o p : any_order o -> rating_text (p_rating p) -> match p_nextdelim p with Some d => scalar d = true | None => True end -> readable (JObj (arranged o p)).
Proof.
  intros Ho Hr Hn. apply readable_obj.
  - orders Ho; destruct p as [[x|] [[g|g]|] [n|]]; cbn; repeat constructor; cbn; intuition discriminate.
  - intros k x Hin. unfold arranged in Hin. apply in_flat_map in Hin as (t&_&Hin). unfold thing_entry in Hin. destruct t.
    + destruct (p_rank p); [|destruct Hin]. destruct Hin as [E|[]]. injection E as <- <-. repeat split.
    + destruct (p_rating p) as [[z|y]|]; [| |destruct Hin]; destruct Hin as [E|[]]; injection E as <- <-; (split; [reflexivity|]); (split; [|exact I]); [reflexivity|exact Hr].
    + destruct (p_nextdelim p) as [d|]; [|destruct Hin]. destruct Hin as [E|[]]. injection E as <- <-. split; [reflexivity|]. split; [|exact I]. cbn [json_text_ok forallb]. rewrite Hn. reflexivity.
Qed.
Lemma shown_ok ps v : candidates_shown any_order ps (v_prefs v) -> storable_line v -> readable (JObj ps).
Proof.
  intros F [S1 S2 _ _ _ _]. apply readable_obj; [rewrite (shown_keys _ _ _ F); exact S1|]. unfold candidates_shown in F. intros k x Hin.
  assert (G : exists cp, In cp (v_prefs v) /\ fst cp = k /\ exists o, any_order o /\ x = JObj (arranged o (snd cp))).
  { clear -F Hin. induction F as [|[c j] [c' p] l l' (E&o&Ho&Ej) _ IH]; [destruct Hin|]. cbn [fst snd] in *. destruct Hin as [H|Hin]; [injection H as <- <-; exists (c', p); split; [left; reflexivity|]; split; [symmetry; exact E|]; exists o; auto|]. destruct (IH Hin) as (cp&H1&H2). exists cp. split; [right; exact H1|exact H2]. }
  destruct G as ([c p]&G1&G2&o&Ho&->). cbn [fst snd] in *. subst c. destruct (S2 k p G1) as (T1&T2&T3). split; [exact T1|]. apply arranged_ok; assumption.
Qed.
Lemma abif_line_ok add j v : abif_line add j v -> storable_line v -> readable j.
Proof.
  intros (ps&prefstr&->&Hp&_&F) S1. apply (shown_weaken (abif_order add prefstr) any_order) in F; [|apply abif_order_any]. pose proof (shown_ok ps v F S1) as P. destruct S1 as [_ _ S3 S4 S5 _]. rewrite Hp in S4. cbn [opt_text] in S4. apply readable_obj.
  - destruct (v_voterid v); cbn; repeat constructor; cbn; intuition discriminate.
  - intros k x Hin. apply in_app_or in Hin as [[E|[E|[E|[E|[]]]]]|Hin].
    + injection E as <- <-. repeat split.
    + injection E as <- <-. split; [reflexivity|]. destruct (v_comment v); split; try exact I; [exact S3|reflexivity].
    + injection E as <- <-. split; [reflexivity|exact P].
    + injection E as <- <-. split; [reflexivity|]. split; [exact S4|exact I].
    + destruct (v_voterid v) as [i|]; [|destruct Hin]. destruct Hin as [E|[]]. injection E as <- <-. split; [reflexivity|]. split; [exact S5|exact I].
Qed.
Lemma merged_ok j v : merged_line j v -> storable_line v -> readable j.
Proof.
  intros (ps&->&F&_) S1. pose proof (shown_ok ps v F S1) as P. apply readable_obj; [cbn; repeat constructor; cbn; intuition discriminate|]. intros k x [E|[E|[]]]; injection E as <- <-; (split; [reflexivity|]); [exact P|split; [reflexivity|exact I]].
Qed.
Lemma lines_ok (R : json -> voteline -> Prop) vs l : (forall j v, R j v -> storable_line v -> readable j) -> Forall2 R vs l -> (forall v, In v l -> storable_line v) -> forall x, In x vs -> readable x.
Proof.
  intros H F S1. induction F as [|j v vs l Hj _ IH]; intros x Hin; [destruct Hin|]. destruct Hin as [<-|Hin]; [apply (H j v Hj), S1; left; reflexivity|]. apply IH; [intros; apply S1; right; assumption|exact Hin].
Qed.
Lemma object_ok C M V : readable C -> readable M -> readable V -> readable (JObj [(u "candidates", C); (u "metadata", M); (u "votelines", V)]) /\ readable (JObj [(u "metadata", M); (u "candidates", C); (u "votelines", V)]).
Proof. intros H1 H2 H3. split; (apply readable_obj; [cbn; repeat constructor; cbn; intuition discriminate|]); intros k x [E|[E|[E|[]]]]; injection E as <- <-; (split; [reflexivity|assumption]). Qed.
Lemma meta_readable m : storable m -> readable (JObj (j_metadata m)).
Proof. intro St. apply readable_obj; [apply St|]. intros k x Hin. destruct (st_meta m St k x Hin) as (T1&T2&T3). split; [exact T1|split; assumption]. Qed.
Lemma abif_object_readable add j m : abif_object add j m -> storable m -> readable j.
Proof.
  intros (vs&->&F) St. apply object_ok.
  - unfold names_of. apply readable_obj; [rewrite map_map; apply (st_cand_keys m St)|]. intros k x Hin. apply in_map_iff in Hin as ([c n]&E&Hin). cbn [fst snd] in E. injection E as <- <-. destruct (st_cands _ St c n Hin) as (T1&T2). split; [exact T1|]. split; [exact T2|exact I].
  - apply meta_readable, St.
  - apply readable_arr. apply (lines_ok (abif_line add) vs (j_votelines m)); [apply abif_line_ok|exact F|apply St].
Qed.
Lemma abif_object_read add j m : abif_object add j m -> jabmod_of_json j = Some m.
Proof.
  intros (vs&->&F). pose proof (lines_read (abif_line add) vs (j_votelines m) (abif_line_read add) F) as E2. destruct m as [md cs ls]. unfold names_of. cbn [j_metadata j_candidates j_votelines] in *.
  assert (E1 : mapO (entry str_of_json) (map (fun kv => (fst kv, JStr (snd kv))) cs) = Some cs).
  { rewrite (mapO_map _ _ (fun x => x)); [rewrite map_id; reflexivity|]. intros [k x] _. reflexivity. }
  revert E1 E2. generalize (map (fun kv : str * str => (fst kv, JStr (snd kv))) cs) as lc. intros lc E1 E2.
  change (match mapO (entry str_of_json) lc, mapO voteline_of_json vs with Some a, Some b => Some (Jabmod md a b) | _, _ => None end = Some (Jabmod md cs ls)). rewrite E1, E2. reflexivity.
Qed.
