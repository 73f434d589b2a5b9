(** * ParserLines: reading metadata and candidate lines *)

From Verif Require Import PyBase PyFacts Jabmod Regex RegexFacts WordTable ScoreModel ScoreFacts Spec ParserModel ParserSpec ParserFacts ParserPrefs ParserRender.
From Verif Require Import PairwiseModel PropsPairwise PropsScore ParserFile ParserText.
Local Open Scope Z_scope.

Section Greedy.
Context {R : Type}.
Implicit Types (k : str -> caps -> option R) (x : R).

Lemma g_lit c s cs k x : k s cs = Some x -> rm (RLit c) (c :: s) cs k = Some x.
Proof. intro H. unfold RLit. cbn [rm]. rewrite N.eqb_refl. exact H. Qed.
Lemma g_star p a b cs k x : forallb p a = true -> stops p b -> k b cs = Some x -> rm (RStar p) (a ++ b) cs k = Some x.
Proof. intros Ha Hb H. cbn [rm]. apply star_go_exact; assumption. Qed.
Lemma g_star0 p b cs k x : stops p b -> k b cs = Some x -> rm (RStar p) b cs k = Some x.
Proof. intros Hb H. apply (g_star p [] b); [reflexivity|exact Hb|exact H]. Qed.
Lemma g_opt_yes p c s cs k x : p c = true -> k s cs = Some x -> rm (ROpt p) (c :: s) cs k = Some x.
Proof. intros Hp H. unfold ROpt. cbn [rm]. rewrite Hp, H. reflexivity. Qed.
Lemma g_opt_no p s cs k x : stops p s -> k s cs = Some x -> rm (ROpt p) s cs k = Some x.
Proof. intros Hp H. unfold ROpt. cbn [rm]. destruct s as [|c s]; [exact H|]. cbn in Hp. rewrite Hp. exact H. Qed.
Lemma g_plus p a b cs k x : a <> [] -> forallb p a = true -> stops p b -> k b cs = Some x -> rm (RPlus p) (a ++ b) cs k = Some x.
Proof.
  intros Hne Ha Hb H. destruct a as [|c a]; [congruence|]. cbn [forallb] in Ha. apply andb_prop in Ha as [Hc Ha].
  unfold RPlus. cbn [rm app]. rewrite Hc. apply star_go_exact; assumption.
Qed.
Lemma g_grp_plus n p a b cs k x : a <> [] -> forallb p a = true -> stops p b -> k b ((n, a) :: cs) = Some x ->
  rm (RGrp n (RPlus p)) (a ++ b) cs k = Some x.
Proof. intros Hne Ha Hb H. cbn [rm]. apply g_plus; auto. rewrite firstn_pre. exact H. Qed.
Lemma g_grp_star n p a b cs k x : forallb p a = true -> stops p b -> k b ((n, a) :: cs) = Some x ->
  rm (RGrp n (RStar p)) (a ++ b) cs k = Some x.
Proof. intros Ha Hb H. change (rm (RGrp n (RStar p)) (a ++ b) cs k) with (rm (RStar p) (a ++ b) cs (fun s' cs' => k s' ((n, firstn (length (a ++ b) - length s') (a ++ b)) :: cs'))).
  apply g_star; auto. rewrite firstn_pre. exact H. Qed.
Lemma g_end cs k x : k [] cs = Some x -> rm REnd [] cs k = Some x.
Proof. intro H. exact H. Qed.
Lemma g_seq a b s cs k x : rm a s cs (fun s' cs' => rm b s' cs' k) = Some x -> rm (RSeq a b) s cs k = Some x.
Proof. intro H. exact H. Qed.
End Greedy.

Lemma not_space_stops c s : is_space c = false -> stops is_space (c :: s). Proof. intro H; exact H. Qed.

Lemma meta_key_quote c : meta_key_char c = true -> one_of quotes c = false.
Proof.
  intro H. destruct (one_of quotes c) eqn:E; [|reflexivity]. apply one_of_In in E. cbn in E.
  destruct E as [<-|[<-|[]]]; vm_compute in H; discriminate.
Qed.

Lemma metadata_match quoted key pad value : key_ok quoted key -> value_ok quoted value -> forallb is_space pad = true ->
  re_match METADATA_REGEX (meta_line quoted key pad value) = Some ([(2%nat, value); (1%nat, key)], []).
Proof.
  intros (K1&K2&K3) (V1&V2&V3) Hp. unfold re_match, METADATA_REGEX, RSeqs, meta_line.
  destruct quoted; cbn [app].
  - apply g_seq, g_lit, g_seq, g_star0; [reflexivity|]. apply g_seq, g_opt_yes; [reflexivity|].
    apply g_seq, g_grp_plus; [exact K1|exact K2|reflexivity|].
    apply g_seq, g_star0; [reflexivity|]. apply g_seq, g_opt_yes; [reflexivity|]. apply g_seq, g_star0; [reflexivity|].
    apply g_seq, g_lit. apply g_seq, g_star; [exact Hp|reflexivity|]. apply g_seq, g_opt_yes; [reflexivity|].
    apply g_seq, g_grp_plus; [exact V1|exact V2|reflexivity|].
    apply g_seq, g_star0; [reflexivity|]. apply g_seq, g_opt_yes; [reflexivity|]. apply g_seq, g_star0; [reflexivity|].
    apply g_seq, g_lit, g_end. reflexivity.
  - specialize (K3 eq_refl). destruct (V3 eq_refl) as [V3a V3b].
    assert (SK : forall rest, stops is_space (key ++ rest) /\ stops (one_of quotes) (key ++ rest)).
    { intro rest. destruct key as [|c key]; [congruence|]. cbn in K3, K2 |- *. apply andb_prop in K2 as [K2 _].
      split; [exact K3|apply meta_key_quote; exact K2]. }
    assert (SV : forall rest, stops is_space (value ++ rest) /\ stops (one_of quotes) (value ++ rest)).
    { intro rest. destruct value as [|c value]; [congruence|]. cbn [starts] in V3a, V3b. cbn [app stops]. split; [exact V3a|].
      cbn [forallb] in V2. apply andb_prop in V2 as [V2 _]. destruct (one_of quotes c) eqn:E; [|reflexivity]. apply one_of_In in E. cbn in E.
      destruct E as [<-|[<-|[]]]; [discriminate|vm_compute in V2; discriminate]. }
    apply g_seq, g_lit, g_seq, g_star0; [apply SK|]. apply g_seq, g_opt_no; [apply SK|].
    apply g_seq, g_grp_plus; [exact K1|exact K2|reflexivity|].
    apply g_seq, g_star0; [reflexivity|]. apply g_seq, g_opt_no; [reflexivity|]. apply g_seq, g_star0; [reflexivity|].
    apply g_seq, g_lit. apply g_seq, g_star; [exact Hp|apply SV|]. apply g_seq, g_opt_no; [apply SV|].
    apply g_seq, g_grp_plus; [exact V1|exact V2|reflexivity|].
    apply g_seq, g_star0; [reflexivity|]. apply g_seq, g_opt_no; [reflexivity|]. apply g_seq, g_star0; [reflexivity|].
    apply g_seq, g_lit, g_end. reflexivity.
Qed.

Lemma candline_match bracketed tok name : token_ok tok -> name_ok bracketed name ->
  re_match CANDLINE_REGEX (cand_line bracketed tok name) = Some ([(2%nat, name); (1%nat, tok)], []).
Proof.
  intros (T1&T2&T3) (N1&N2). unfold re_match, CANDLINE_REGEX, RSeqs, cand_line.
  assert (ST : forall rest, stops is_space (tok ++ 58%N :: rest) /\ stops (one_of [ch_dq; ch_lbr]) (tok ++ 58%N :: rest)).
  { intro rest. destruct tok as [|c tok]; [split; reflexivity|]. cbn [starts] in T2, T3. cbn [app stops]. split; [exact T2|].
    cbn [forallb] in T1. apply andb_prop in T1 as [T1 _]. destruct (one_of [ch_dq; ch_lbr] c) eqn:E; [|reflexivity]. apply one_of_In in E. cbn in E.
    destruct E as [<-|[<-|[]]]; [vm_compute in T1; discriminate|discriminate]. }
  destruct bracketed; cbn [app].
  - apply g_seq, g_lit, g_seq, g_star0; [apply ST|]. apply g_seq, g_opt_no; [apply ST|].
    apply g_seq, g_grp_star; [exact T1|reflexivity|]. apply g_seq, g_opt_no; [reflexivity|]. apply g_seq, g_lit.
    apply g_seq, g_opt_yes; [reflexivity|]. apply g_seq, g_grp_star; [exact N1|reflexivity|].
    apply g_seq, g_opt_yes; [reflexivity|]. apply g_end. reflexivity.
  - apply g_seq, g_lit, g_seq, g_star0; [apply ST|]. apply g_seq, g_opt_no; [apply ST|].
    apply g_seq, g_grp_star; [exact T1|reflexivity|]. apply g_seq, g_opt_no; [reflexivity|]. apply g_seq, g_lit.
    apply g_seq, g_opt_no; [destruct name as [|c name]; [exact I|exact (N2 eq_refl)]|].
    rewrite <- (app_nil_r name). apply g_seq, g_grp_star; [exact N1|exact I|].
    apply g_seq, g_opt_no; [exact I|]. apply g_end. rewrite app_nil_r. reflexivity.
Qed.
