(** * RegexFacts: the matcher of Regex.v is sound and complete for the usual meaning of patterns *)

From Verif Require Import PyBase PyFacts Regex.
Local Open Scope nat_scope.

(** [rmat r s cs s' cs']: [r] can match the prefix of [s] that leaves [s'], growing the groups. *)
Inductive rmat : regex -> str -> caps -> str -> caps -> Prop :=
| M_chr p c s cs : p c = true -> rmat (RChr p) (c :: s) cs s cs
| M_eps s cs : rmat REps s cs s cs
| M_seq a b s cs s1 cs1 s2 cs2 : rmat a s cs s1 cs1 -> rmat b s1 cs1 s2 cs2 -> rmat (RSeq a b) s cs s2 cs2
| M_alt1 a b s cs s' cs' : rmat a s cs s' cs' -> rmat (RAlt a b) s cs s' cs'
| M_alt2 a b s cs s' cs' : rmat b s cs s' cs' -> rmat (RAlt a b) s cs s' cs'
| M_star p a s cs : forallb p a = true -> rmat (RStar p) (a ++ s) cs s cs
| M_grp n r a s' cs cs' : rmat r (a ++ s') cs s' cs' -> rmat (RGrp n r) (a ++ s') cs s' ((n, a) :: cs')
| M_end cs : rmat REnd [] cs [] cs
| M_end_nl cs : rmat REnd [10%N] cs [10%N] cs.

Lemma rmat_suffix r s cs s' cs' : rmat r s cs s' cs' -> exists a, s = a ++ s'.
Proof.
  induction 1.
  - exists [c]; reflexivity.
  - exists []; reflexivity.
  - destruct IHrmat1 as [x ->], IHrmat2 as [y ->]. exists (x ++ y). rewrite app_assoc; reflexivity.
  - assumption.
  - assumption.
  - eauto.
  - eauto.
  - exists []; reflexivity.
  - exists []; reflexivity.
Qed.

Lemma star_go_sound {R} p (k : str -> option R) s x :
  star_go p k s = Some x -> exists a s', s = a ++ s' /\ forallb p a = true /\ k s' = Some x.
Proof.
  induction s as [|c s IH]; cbn [star_go].
  - intro H. exists [], []. auto.
  - destruct (p c) eqn:Ep.
    + destruct (star_go p k s) eqn:Eg.
      * intro H. destruct IH as (a&s'&->&Ha&Hk); [exact H|]. exists (c :: a), s'. cbn. rewrite Ep. auto.
      * intro H. exists [], (c :: s). auto.
    + intro H. exists [], (c :: s). auto.
Qed.

Lemma star_go_complete {R} p (k : str -> option R) a s :
  forallb p a = true -> k s <> None -> star_go p k (a ++ s) <> None.
Proof.
  induction a as [|c a IH]; cbn [app forallb]; intros Ha Hk.
  - destruct s as [|c s]; cbn [star_go]; [exact Hk|]. destruct (p c); [|exact Hk].
    destruct (star_go p k s); [discriminate|exact Hk].
  - apply andb_prop in Ha as [Hc Ha]. cbn [star_go]. rewrite Hc.
    destruct (star_go p k (a ++ s)) eqn:Eg; [discriminate|]. exfalso. apply (IH Ha Hk). reflexivity.
Qed.

Lemma firstn_pre {A} (a b : list A) : firstn (length (a ++ b) - length b) (a ++ b) = a.
Proof.
  rewrite app_length. replace (length a + length b - length b) with (length a + 0) by lia.
  rewrite firstn_app_2. cbn. apply app_nil_r.
Qed.

Lemma rm_sound {R} r : forall s cs (k : str -> caps -> option R) x,
  rm r s cs k = Some x -> exists s' cs', rmat r s cs s' cs' /\ k s' cs' = Some x.
Proof.
  induction r; intros s cs k x H; cbn [rm] in H.
  - destruct s as [|c s]; [discriminate|]. destruct (p c) eqn:Ep; [|discriminate].
    do 2 eexists. split; [constructor; exact Ep|exact H].
  - do 2 eexists. split; [constructor|exact H].
  - apply IHr1 in H as (s1&c1&M1&H). apply IHr2 in H as (s2&c2&M2&H).
    do 2 eexists. split; [econstructor; eassumption|exact H].
  - destruct (rm r1 s cs k) eqn:E1.
    + rewrite <- E1 in H. rewrite E1 in H. apply some_inj in H; subst. apply IHr1 in E1 as (s1&c1&M1&H).
      do 2 eexists. split; [apply M_alt1; eassumption|exact H].
    + apply IHr2 in H as (s1&c1&M1&H). do 2 eexists. split; [apply M_alt2; eassumption|exact H].
  - apply star_go_sound in H as (a&s'&->&Ha&Hk). do 2 eexists. split; [constructor; exact Ha|exact Hk].
  - apply IHr in H as (s1&c1&M1&H). destruct (rmat_suffix _ _ _ _ _ M1) as [a ->].
    rewrite firstn_pre in H. do 2 eexists. split; [constructor; exact M1|exact H].
  - destruct s as [|c s].
    + do 2 eexists. split; [constructor|exact H].
    + assert (Hc : c = 10%N /\ s = [] /\ k (c :: s) cs = Some x).
      { destruct c as [|p]; [discriminate|]. repeat (destruct p; try discriminate); destruct s; try discriminate. auto. }
      destruct Hc as (->&->&Hk). do 2 eexists. split; [apply M_end_nl|exact Hk].
Qed.

Lemma rm_complete r : forall s cs s' cs', rmat r s cs s' cs' ->
  forall R (k : str -> caps -> option R), k s' cs' <> None -> rm r s cs k <> None.
Proof.
  intros s cs s' cs' M. induction M; intros R k Hk; cbn [rm].
  - rewrite H. exact Hk.
  - exact Hk.
  - apply IHM1. apply IHM2. exact Hk.
  - specialize (IHM R k Hk). destruct (rm a s cs k); [discriminate|contradiction].
  - destruct (rm a s cs k); [discriminate|]. apply IHM. exact Hk.
  - apply star_go_complete; assumption.
  - apply IHM. rewrite firstn_pre. exact Hk.
  - exact Hk.
  - exact Hk.
Qed.

Lemma re_match_sound r s g s' : re_match r s = Some (g, s') -> rmat r s [] s' g.
Proof.
  unfold re_match. intro H. apply rm_sound in H as (s1&c1&M&H). inversion H; subst. exact M.
Qed.

Lemma re_match_complete r s s' g : rmat r s [] s' g -> exists g' s'', re_match r s = Some (g', s'').
Proof.
  intro M. pose proof (rm_complete r _ _ _ _ M _ (fun s' cs => Some (cs, s'))) as H.
  unfold re_match. destruct (rm r s [] _) as [[g' s'']|]; [eauto|]. exfalso. apply H; [discriminate|reflexivity].
Qed.

Lemma re_match_none r s : (forall s' g, ~ rmat r s [] s' g) -> re_match r s = None.
Proof.
  intro H. destruct (re_match r s) as [[g s']|] eqn:E; [|reflexivity].
  exfalso. exact (H _ _ (re_match_sound _ _ _ _ E)).
Qed.

(** Inversion lemmas in equational form. *)
Lemma rmat_chr_inv p s cs s' cs' : rmat (RChr p) s cs s' cs' <-> exists c, s = c :: s' /\ p c = true /\ cs' = cs.
Proof.
  split.
  - intro M. inversion M; subst. eauto.
  - intros (c&->&H&->). constructor; exact H.
Qed.
Lemma rmat_seq_inv a b s cs s' cs' :
  rmat (RSeq a b) s cs s' cs' <-> exists s1 cs1, rmat a s cs s1 cs1 /\ rmat b s1 cs1 s' cs'.
Proof.
  split.
  - intro M. inversion M; subst. eauto.
  - intros (s1&c1&H1&H2). econstructor; eassumption.
Qed.
Lemma rmat_star_inv p s cs s' cs' :
  rmat (RStar p) s cs s' cs' <-> exists a, s = a ++ s' /\ forallb p a = true /\ cs' = cs.
Proof.
  split.
  - intro M. inversion M; subst. eauto.
  - intros (a&->&H&->). constructor; exact H.
Qed.
Lemma rmat_grp_inv n r s cs s' cs' :
  rmat (RGrp n r) s cs s' cs' <-> exists a cs1, s = a ++ s' /\ cs' = (n, a) :: cs1 /\ rmat r s cs s' cs1.
Proof.
  split.
  - intro M. inversion M; subst. eauto.
  - intros (a&c1&->&->&H). constructor; exact H.
Qed.
Lemma rmat_end_inv s cs s' cs' : rmat REnd s cs s' cs' <-> s' = s /\ cs' = cs /\ (s = [] \/ s = [10%N]).
Proof.
  split.
  - intro M. inversion M; subst; auto.
  - intros (->&->&[->| ->]); constructor.
Qed.
Lemma rmat_opt_inv p s cs s' cs' :
  rmat (ROpt p) s cs s' cs' <-> cs' = cs /\ (s = s' \/ exists c, s = c :: s' /\ p c = true).
Proof.
  split.
  - intro M. inversion M as [| | |? ? ? ? ? ? M1|? ? ? ? ? ? M1| | | |]; subst.
    + apply rmat_chr_inv in M1 as (c&->&H&->). eauto.
    + inversion M1; subst. eauto.
  - intros (->&[->|(c&->&H)]); [apply M_alt2; constructor|apply M_alt1; constructor; exact H].
Qed.
Lemma rmat_plus_inv p s cs s' cs' :
  rmat (RPlus p) s cs s' cs' <-> exists a, a <> [] /\ s = a ++ s' /\ forallb p a = true /\ cs' = cs.
Proof.
  unfold RPlus. rewrite rmat_seq_inv. split.
  - intros (s1&c1&H1&H2). apply rmat_chr_inv in H1 as (c&->&Hc&->). apply rmat_star_inv in H2 as (a&->&Ha&->).
    exists (c :: a). cbn. rewrite Hc. repeat split; auto. discriminate.
  - intros (a&Hne&->&Ha&->). destruct a as [|c a]; [congruence|]. cbn in Ha. apply andb_prop in Ha as [Hc Ha].
    exists (a ++ s'), cs. split; [constructor; exact Hc|constructor; exact Ha].
Qed.
Lemma rmat_word_inv w s cs s' cs' : rmat (RWord w) s cs s' cs' <-> s = w ++ s' /\ cs' = cs.
Proof.
  revert s; induction w as [|c w IH]; intro s; cbn [RWord].
  - split; [intro M; inversion M; subst; auto|intros [-> ->]; constructor].
  - rewrite rmat_seq_inv. split.
    + intros (s1&c1&H1&H2). apply rmat_chr_inv in H1 as (d&->&Hd&->). apply IH in H2 as [-> ->].
      apply N.eqb_eq in Hd. subst. auto.
    + intros [-> ->]. exists (w ++ s'), cs. split; [constructor; apply N.eqb_refl|apply IH; auto].
Qed.

(** ** Splitting a string at the first character outside a class *)

(** The longest prefix of characters in [p], and the rest. *)
Fixpoint span (p : N -> bool) (s : str) : str * str :=
  match s with
  | [] => ([], [])
  | c :: r => if p c then let '(a, b) := span p r in (c :: a, b) else ([], s)
  end.

Definition stops (p : N -> bool) (s : str) : Prop := match s with [] => True | c :: _ => p c = false end.

Lemma span_app p a b : forallb p a = true -> stops p b -> span p (a ++ b) = (a, b).
Proof.
  induction a as [|c a IH]; cbn [app forallb span]; intros Ha Hb.
  - destruct b as [|c b]; [reflexivity|]. cbn in *. rewrite Hb. reflexivity.
  - apply andb_prop in Ha as [Hc Ha]. rewrite Hc, IH by assumption. reflexivity.
Qed.

Lemma span_spec p s : let '(a, b) := span p s in s = a ++ b /\ forallb p a = true /\ stops p b.
Proof.
  induction s as [|c s IH]; cbn [span]; [cbn; auto|].
  destruct (p c) eqn:Ep.
  - destruct (span p s) as [a b]. destruct IH as (->&Ha&Hb). cbn. rewrite Ep. auto.
  - cbn. auto.
Qed.

Lemma split_unique p (a1 a2 b1 b2 : str) : a1 ++ b1 = a2 ++ b2 ->
  forallb p a1 = true -> forallb p a2 = true -> stops p b1 -> stops p b2 -> a1 = a2 /\ b1 = b2.
Proof.
  intros E H1 H2 S1 S2. pose proof (span_app p a1 b1 H1 S1) as E1. rewrite E, (span_app p a2 b2 H2 S2) in E1.
  inversion E1; auto.
Qed.

Lemma forallb_In {A} (p : A -> bool) l : forallb p l = true <-> forall x, In x l -> p x = true.
Proof. apply forallb_forall. Qed.

Lemma one_of_In l c : one_of l c = true <-> In c l.
Proof.
  unfold one_of. rewrite existsb_exists. split; [intros (x&H&E); apply N.eqb_eq in E; subst; exact H|].
  intro H. exists c. split; [exact H|apply N.eqb_refl].
Qed.
Lemma none_of_In l c : none_of l c = true <-> ~ In c l.
Proof. unfold none_of. rewrite negb_true_iff, <- one_of_In. destruct (one_of l c); split; congruence. Qed.
