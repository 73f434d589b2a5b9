(** * Properties C53-C55: token shortening (abiflib/util.py), clean_dict and _modify_jabmod (abiflib/core.py) *)

From Coq Require Import Lia.
From Verif Require Import PyBase PyFacts Jabmod Spec Regex RegexFacts TextFacts JsonText DebtallyModel DebtallyFacts SftxtModel SftxtFile UtilModel.
Local Open Scope Z_scope.

(** ** C53 *)
(** Every maximal run of characters other than letters and digits becomes one underscore. *)
Inductive squeezed : str -> str -> Prop :=
| sq_nil : squeezed [] []
| sq_keep c s t : alnum c = true -> squeezed s t -> squeezed (c :: s) (c :: t)
| sq_run run s t : run <> [] -> (forall c, In c run -> alnum c = false) -> (forall c r, s = c :: r -> alnum c = true) -> squeezed s t -> squeezed (run ++ s) (95%N :: t).
(** The text p occurs in s. *)
Definition occurs (p s : str) : Prop := exists a b, s = a ++ p ++ b.
(** A name that needs no change. *)
Definition plain (n : nat) (name : str) : Prop := name <> [] /\ (length name <= n)%nat /\ forallb alnum name = true.

Lemma underscores_squeezed s : squeezed s (underscores false s).
Proof.
  assert (P : forall n s, (length s <= n)%nat -> squeezed s (underscores false s) /\
             exists run rest, s = run ++ rest /\ (forall c, In c run -> alnum c = false) /\ (forall c r, rest = c :: r -> alnum c = true) /\ underscores true s = underscores false rest /\ squeezed rest (underscores false rest)).
  { induction n as [|n IH]; intros [|c r] Hl.
    - split; [constructor|]. exists [], []. repeat split; [intros ? []|discriminate|constructor].
    - cbn in Hl; lia.
    - split; [constructor|]. exists [], []. repeat split; [intros ? []|discriminate|constructor].
    - cbn in Hl. destruct (IH r) as (IH1&run&rest&E1&E2&E3&E4&E5); [lia|]. cbn [underscores]. destruct (alnum c) eqn:Ec.
      + split; [constructor; assumption|]. exists [], (c :: r). cbn [underscores]. rewrite Ec. split; [reflexivity|]. split; [intros ? []|]. split; [intros c' r' E; injection E as <- <-; exact Ec|]. split; [reflexivity|]. constructor; assumption.
      + split.
        * rewrite E4. rewrite E1. apply (sq_run (c :: run) rest); [discriminate| |exact E3|exact E5]. intros x [<-|Hx]; [exact Ec|apply E2, Hx].
        * exists (c :: run), rest. split; [rewrite E1; reflexivity|]. split; [intros x [<-|Hx]; [exact Ec|apply E2, Hx]|]. split; [exact E3|]. split; [exact E4|exact E5]. }
  apply (P (length s) s). lia.
Qed.
Lemma squeezed_fun s t1 t2 : squeezed s t1 -> squeezed s t2 -> t1 = t2.
Proof.
  assert (P : forall n s t1 t2, (length s <= n)%nat -> squeezed s t1 -> squeezed s t2 -> t1 = t2).
  { induction n as [|n IH]; intros s0 a1 a2 Hl H1 H2.
    - destruct s0; [|cbn in Hl; lia]. inversion H1 as [E|? ? ? ? ? E|run s0' t0 Hn _ _ _ E]; [|destruct run; [congruence|discriminate]]. inversion H2 as [E'|? ? ? ? ? E'|run' s1' t1' Hn' _ _ _ E']; [reflexivity|destruct run'; [congruence|discriminate]].
    - destruct H1 as [|c s1 t1' Hc H1|run s1 t1' Hn Hr Hs H1].
      + inversion H2 as [E|? ? ? ? ? E|run s0' t0 Hn _ _ _ E]; [reflexivity|destruct run; [congruence|discriminate]].
      + inversion H2 as [E|? ? t' ? H2' E|run s0' t0 Hn Hr _ _ E]; subst.
        * f_equal. apply (IH s1); [cbn in Hl; lia|assumption|assumption].
        * destruct run as [|c' run]; [congruence|]. injection E as -> _. rewrite Hr in Hc by (left; reflexivity). discriminate.
      + inversion H2 as [E|c ? t' Hc H2' E|run' s' t0 Hn' Hr' Hs' H2' E].
        * destruct run; [congruence|discriminate].
        * destruct run as [|c' run]; [congruence|]. injection E as -> _. rewrite Hr in Hc by (left; reflexivity). discriminate.
        * assert (G : run' = run /\ s' = s1).
          { clear - E Hr Hr' Hs Hs'. revert run E Hr. induction run' as [|x run' IHr]; intros [|y run] E Hr.
            - split; [reflexivity|exact E].
            - cbn in E. specialize (Hs' y (run ++ s1) E). rewrite Hr in Hs' by (left; reflexivity). discriminate.
            - cbn in E. specialize (Hs x (run' ++ s') (eq_sym E)). rewrite Hr' in Hs by (left; reflexivity). discriminate.
            - injection E as -> E. destruct (IHr (fun c H => Hr' c (or_intror H)) run E (fun c H => Hr c (or_intror H))) as (->&->). auto. }
          destruct G as (->&->). f_equal. apply (IH s1); [|exact H1|exact H2']. rewrite app_length in Hl. destruct run; [congruence|]. cbn in Hl. lia. }
  intros H1 H2. apply (P (length s) s); auto.
Qed.

Lemma is_prefix_app p : forall s, is_prefix p s = true <-> exists r, s = p ++ r.
Proof.
  induction p as [|x p IH]; intro s; [split; [exists s; reflexivity|reflexivity]|]. destruct s as [|y s]; cbn [is_prefix]; [split; [discriminate|intros (r&E); discriminate]|].
  rewrite Bool.andb_true_iff, N.eqb_eq, IH. split; [intros (->&r&->); exists r; reflexivity|intros (r&E); injection E as -> ->; split; [reflexivity|exists r; reflexivity]].
Qed.
Lemma sub_skip k : forall s, sub_write_in k s = sub_write_in 0 (skipn k s).
Proof. induction k as [|k IH]; intro s; [reflexivity|]. destruct s as [|c s]; [reflexivity|]. cbn [sub_write_in skipn]. apply IH. Qed.
Lemma sub_cases s : (exists r, s = k_write_in ++ r /\ sub_write_in 0 s = u "wi_" ++ sub_write_in 0 r) \/
  (is_prefix k_write_in s = false /\ match s with [] => sub_write_in 0 s = [] | c :: r => sub_write_in 0 s = c :: sub_write_in 0 r end).
Proof.
  destruct (is_prefix k_write_in s) eqn:E.
  - left. apply is_prefix_app in E as (r&->). exists r. split; [reflexivity|].
    reflexivity.
  - right. split; [reflexivity|]. destruct s as [|c s]; [reflexivity|]. cbn [sub_write_in]. rewrite E. reflexivity.
Qed.
Lemma occurs_prefix p s : is_prefix p s = false -> forall c r, s = c :: r -> occurs p s -> occurs p r.
Proof.
  intros H c r -> (a&b&E). destruct a as [|x a]; [exfalso; assert (X : is_prefix p (c :: r) = true) by (apply is_prefix_app; exists b; exact E); congruence|].
  injection E as -> E. exists a, b. exact E.
Qed.
Lemma sub_split s : exists pieces, pieces <> [] /\ s = join k_write_in pieces /\ (forall x, In x pieces -> ~ occurs k_write_in x) /\ sub_write_in 0 s = join (u "wi_") pieces.
Proof.
  assert (P : forall n s, (length s <= n)%nat -> exists p ps, s = join k_write_in (p :: ps) /\ (forall x, In x (p :: ps) -> ~ occurs k_write_in x) /\ sub_write_in 0 s = join (u "wi_") (p :: ps)).
  { assert (Z0 : forall x, In x [[]] -> ~ occurs k_write_in x) by (intros x [<-|[]] (a&b&E); destruct a; discriminate).
    induction n as [|n IH]; intros s0 Hl.
    - destruct s0; [|cbn in Hl; lia]. exists [], []. auto.
    - destruct (sub_cases s0) as [(r&->&E)|(E1&E2)].
      + destruct (IH r) as (p&ps&Hr&Ho&Es). { rewrite app_length in Hl. change (length k_write_in) with 9%nat in Hl. lia. }
        exists [], (p :: ps). split; [|split].
        * rewrite Hr at 1. reflexivity.
        * intros x [<-|Hx]; [apply Z0; left; reflexivity|apply Ho, Hx].
        * rewrite E, Es. reflexivity.
      + destruct s0 as [|c r]; [exists [], []; auto|]. destruct (IH r) as (p&ps&Hr&Ho&Es); [cbn in Hl; lia|]. exists (c :: p), ps. split; [|split].
        * rewrite Hr at 1. destruct ps; reflexivity.
        * intros x [<-|Hx]; [|apply Ho; right; exact Hx]. intro Hoc. apply (Ho p (or_introl eq_refl)).
          apply (occurs_prefix k_write_in (c :: p)) with (c := c); [|reflexivity|exact Hoc].
          destruct (is_prefix k_write_in (c :: p)) eqn:Ep; [|reflexivity]. apply is_prefix_app in Ep as (q&Eq).
          assert (X : is_prefix k_write_in (c :: r) = true); [|congruence]. apply is_prefix_app. destruct ps as [|p2 ps]; [exists q; rewrite <- Eq, Hr; reflexivity|].
          exists (q ++ k_write_in ++ join k_write_in (p2 :: ps)). rewrite app_assoc, <- Eq, Hr. reflexivity.
        * rewrite E2, Es. destruct ps; reflexivity. }
  destruct (P (length s) s (le_n _)) as (p&ps&H1&H2&H3). exists (p :: ps). split; [discriminate|auto].
Qed.

(** Exactly: a plain name stays; otherwise runs of other characters become underscores, every WRITE_IN_ is
    then replaced by wi_, and the first max_length characters are taken. *)
Theorem C53_exact : forall n name, ~ In 10%N name ->
  (plain n name -> utf8_string_to_abif_token n name = name) /\
  (~ plain n name -> exists t pieces, squeezed name t /\ pieces <> [] /\ t = join (u "WRITE_IN_") pieces /\ (forall x, In x pieces -> ~ occurs (u "WRITE_IN_") x) /\
     utf8_string_to_abif_token n name = firstn n (join (u "wi_") pieces)).
Proof.
  intros n name Hn. unfold utf8_string_to_abif_token. rewrite alnum_match by exact Hn. split.
  - intros (H1&H2&H3). apply Nat.leb_le in H2. rewrite H2, H3. destruct name; [congruence|reflexivity].
  - intro H. destruct (_ && _) eqn:E.
    + exfalso. apply H. apply andb_prop in E as (E1&E2). apply andb_prop in E2 as (E2&E3). split; [intros ->; discriminate|]. split; [apply Nat.leb_le, E1|exact E2].
    + destruct (sub_split (underscores false name)) as (pieces&P1&P2&P3&P4). exists (underscores false name), pieces. split; [apply underscores_squeezed|]. split; [exact P1|]. split; [exact P2|]. split; [exact P3|]. rewrite P4. reflexivity.
Qed.
Print Assumptions C53_exact.
Theorem C53_squeezed_unique : forall s t1 t2, squeezed s t1 -> squeezed s t2 -> t1 = t2.
Proof. exact squeezed_fun. Qed.
Print Assumptions C53_squeezed_unique.

Lemma utf8_chars n s c : In c (utf8_string_to_abif_token n s) -> alnum c = true \/ c = 95%N \/ (c = 10%N /\ In 10%N s).
Proof.
  unfold utf8_string_to_abif_token. assert (Q : In c (firstn n (sub_write_in 0 (underscores false s))) -> alnum c = true \/ c = 95%N \/ (c = 10%N /\ In 10%N s)).
  { intro H. apply firstn_In in H. apply sub_write_in_chars in H as [H|[H|H]]; auto. apply underscores_chars in H as [H|H]; auto. }
  destruct (length s <=? n)%nat; cbn [andb]; [|exact Q]. destruct (re_match ALNUM_REGEX s) as [[g r]|] eqn:E; [|exact Q].
  intro H. apply re_match_sound in E. unfold ALNUM_REGEX in E. apply rmat_seq_inv in E as (s1&cs1&M&M2). apply rmat_plus_inv in M as (a&Ha&->&Hf&_).
  assert (Hs : forall x, In x s1 -> x = 10%N) by (apply rmat_end_inv in M2 as (_&_&[->| ->]); [intros x []|intros x [<-|[]]; reflexivity]).
  apply in_app_or in H as [H|H]; [left; rewrite forallb_forall in Hf; apply Hf, H|]. right. right. pose proof (Hs c H) as ->. split; [reflexivity|]. apply in_or_app. right; exact H.
Qed.
(** Length and characters. *)
Theorem C53_length_and_characters : forall n name, (length (utf8_string_to_abif_token n name) <= n)%nat /\
  (~ In 10%N name -> forall c, In c (utf8_string_to_abif_token n name) -> alnum c = true \/ c = 95%N).
Proof.
  intros n name. split.
  - unfold utf8_string_to_abif_token. destruct (_ && _) eqn:E; [apply andb_prop in E as (E&_); apply Nat.leb_le, E|]. rewrite firstn_length. lia.
  - intros Hn c Hc. apply utf8_chars in Hc as [H|[H|(_&H)]]; [left; exact H|right; exact H|contradiction].
Qed.
Print Assumptions C53_length_and_characters.

(** A token is its own token. *)
Definition word_char (c : N) : bool := alnum c || (c =? 95)%N.
Fixpoint single (s : str) : Prop :=
  match s with
  | [] => True
  | c :: r => word_char c = true /\ (c = 95%N -> forall r', r <> 95%N :: r') /\ single r
  end.
Lemma single_underscores s : single s -> underscores false s = s /\ ((forall r, s <> 95%N :: r) -> underscores true s = s).
Proof.
  induction s as [|c s IH]; intro H; [split; reflexivity|]. destruct H as (H1&H2&H3). destruct (IH H3) as (I1&I2). cbn [underscores]. destruct (alnum c) eqn:Ec.
  - rewrite I1. split; reflexivity.
  - assert (E : c = 95%N) by (unfold word_char in H1; rewrite Ec in H1; apply N.eqb_eq, H1). subst c. rewrite (I2 (H2 eq_refl)). split; [reflexivity|]. intro H. destruct (H s eq_refl).
Qed.
Lemma underscores_single s : forall b, single (underscores b s) /\ (b = true -> forall r, underscores b s <> 95%N :: r).
Proof.
  induction s as [|c s IH]; intro b; [split; [exact I|discriminate]|]. cbn [underscores]. destruct (alnum c) eqn:Ec.
  - destruct (IH false) as (I1&_). split; [cbn [single]; split; [unfold word_char; rewrite Ec; reflexivity|]; split; [intros ->; discriminate|exact I1]|]. intros _ r E. injection E as -> _. discriminate.
  - destruct (IH true) as (I1&I2). destruct b; [split; [exact I1|exact I2]|]. split; [|discriminate]. cbn [single]. split; [reflexivity|]. split; [intros _; apply I2; reflexivity|exact I1].
Qed.
Lemma sub_head s r : sub_write_in 0 s = 95%N :: r -> exists r', s = 95%N :: r'.
Proof. destruct (sub_cases s) as [(q&->&E)|(_&E)]; intro H; [rewrite E in H; discriminate|]. destruct s as [|c s]; [discriminate|]. rewrite E in H. injection H as -> _. eauto. Qed.
Lemma sub_single s : single s -> single (sub_write_in 0 s).
Proof.
  assert (A : forall a b, single (a ++ b) -> single b). { induction a as [|x a IH]; intros b0 H; [exact H|]. apply IH. apply H. }
  assert (P : forall n s, (length s <= n)%nat -> single s -> single (sub_write_in 0 s)).
  { induction n as [|n IH]; intros s0 Hl H; [destruct s0; [exact I|cbn in Hl; lia]|]. destruct (sub_cases s0) as [(r&->&E)|(_&E)].
    - rewrite E. assert (Hr : single r) by (apply (A k_write_in), H). assert (Hs : single (sub_write_in 0 r)) by (apply IH; [rewrite app_length in Hl; change (length k_write_in) with 9%nat in Hl; lia|exact Hr]).
      assert (Hn : forall r', r <> 95%N :: r'). { assert (H8 : single (95%N :: r)) by (apply (A (firstn 8 k_write_in)); exact H). destruct H8 as (_&H8&_). apply H8. reflexivity. }
      change (single (119%N :: 105%N :: 95%N :: sub_write_in 0 r)). cbn [single]. split; [reflexivity|]. split; [intro X; discriminate X|]. split; [reflexivity|]. split; [intro X; discriminate X|]. split; [reflexivity|]. split; [|exact Hs].
      intros _ r' E'. apply sub_head in E' as (r2&->). apply (Hn r2 eq_refl).
    - destruct s0 as [|c r]; [rewrite E; exact I|]. rewrite E. destruct H as (H1&H2&H3). split; [exact H1|]. split; [|apply IH; [cbn in Hl; lia|exact H3]].
      intros Hc r' E'. apply sub_head in E' as (r2&->). apply (H2 Hc r2 eq_refl). }
  apply (P (length s) s). lia.
Qed.
Lemma single_firstn n : forall s, single s -> single (firstn n s).
Proof.
  induction n as [|n IH]; intros [|c s] H; try exact I. cbn [firstn]. destruct H as (H1&H2&H3). split; [exact H1|]. split; [|apply IH, H3].
  intros Hc r' E. destruct n; [discriminate|]. destruct s as [|d s]; [discriminate|]. cbn in E. injection E as -> _. apply (H2 Hc s eq_refl).
Qed.
Lemma sub_prefix_back q : (forall c, In c q -> c <> 119%N) -> forall s, is_prefix q (sub_write_in 0 s) = true -> is_prefix q s = true.
Proof.
  induction q as [|x q IH]; intros Hq s H; [reflexivity|]. destruct (sub_cases s) as [(r&->&E)|(_&E)].
  - rewrite E in H. cbn [app] in H. change (u "wi_" ++ sub_write_in 0 r) with (119%N :: 105%N :: 95%N :: sub_write_in 0 r) in H. cbn [is_prefix] in H. apply andb_prop in H as (H&_). apply N.eqb_eq in H. destruct (Hq x (or_introl eq_refl) H).
  - destruct s as [|c s]; [rewrite E in H; discriminate|]. rewrite E in H. cbn [is_prefix] in *. apply andb_prop in H as (H1&H2). rewrite H1. cbn [andb]. apply IH; [intros d Hd; apply Hq; right; exact Hd|exact H2].
Qed.
Lemma wi_noW : forall c, In c k_write_in -> c <> 119%N.
Proof. intros c Hc. vm_compute in Hc. repeat destruct Hc as [<-|Hc]; try destruct Hc; discriminate. Qed.
Lemma sub_free s : ~ occurs k_write_in (sub_write_in 0 s).
Proof.
  assert (P : forall n s, (length s <= n)%nat -> ~ occurs k_write_in (sub_write_in 0 s)).
  { induction n as [|n IH]; intros s0 Hl H; [destruct s0; [destruct H as (a&b&E); destruct a; discriminate|cbn in Hl; lia]|].
    destruct (sub_cases s0) as [(r&->&E)|(Ep&E)].
    - rewrite E in H. change (u "wi_" ++ sub_write_in 0 r) with (119%N :: 105%N :: 95%N :: sub_write_in 0 r) in H.
      do 3 (match type of H with occurs _ ?l => pose proof (occurs_prefix k_write_in l eq_refl _ _ eq_refl H) as H'; clear H; rename H' into H end). apply (IH r); [rewrite app_length in Hl; change (length k_write_in) with 9%nat in Hl; lia|exact H].
    - destruct s0 as [|c r]; [rewrite E in H; destruct H as (a&b&E'); destruct a; discriminate|]. rewrite E in H.
      assert (Ep' : is_prefix k_write_in (c :: sub_write_in 0 r) = false). { destruct (is_prefix k_write_in (c :: sub_write_in 0 r)) eqn:X; [|reflexivity]. rewrite <- E in X. apply (sub_prefix_back _ wi_noW) in X. congruence. }
      apply (occurs_prefix k_write_in _ Ep' _ _ eq_refl) in H. apply (IH r); [cbn in Hl; lia|exact H]. }
  apply (P (length s) s). lia.
Qed.
Lemma free_sub s : ~ occurs k_write_in s -> sub_write_in 0 s = s.
Proof.
  induction s as [|c s IH]; intro H; [reflexivity|]. destruct (sub_cases (c :: s)) as [(r&E&_)|(_&E)].
  - exfalso. apply H. exists [], r. exact E.
  - rewrite E, IH; [reflexivity|]. intros (a&b&->). apply H. exists (c :: a), b. reflexivity.
Qed.
Theorem C53_idempotent : forall n name, utf8_string_to_abif_token n (utf8_string_to_abif_token n name) = utf8_string_to_abif_token n name.
Proof.
  intros n name. unfold utf8_string_to_abif_token at 2 3. destruct (_ && _) eqn:E.
  - unfold utf8_string_to_abif_token. rewrite E. reflexivity.
  - set (y := firstn n (sub_write_in 0 (underscores false name))). unfold utf8_string_to_abif_token. match goal with |- (if ?b then _ else _) = _ => destruct b; [reflexivity|] end.
    assert (Hs : single y) by (apply single_firstn, sub_single, underscores_single). rewrite (proj1 (single_underscores y Hs)). rewrite free_sub; [apply firstn_all2; unfold y; rewrite firstn_length; lia|].
    intros (a&b&Ey). apply (sub_free (underscores false name)). exists a, (b ++ skipn n (sub_write_in 0 (underscores false name))). rewrite <- (firstn_skipn n (sub_write_in 0 (underscores false name))) at 1. fold y. rewrite Ey, <- !app_assoc. reflexivity.
Qed.
Print Assumptions C53_idempotent.

(** The San Francisco converter has its own copy of this function: the two agree. *)
Theorem C53_same_as_sftxt : forall name, utf8_string_to_abif_token 20 name = sf_short_token name.
Proof. reflexivity. Qed.
Print Assumptions C53_same_as_sftxt.

Example C53_tokens : utf8_string_to_abif_token 20 (u "DGM") = u "DGM" /\ utf8_string_to_abif_token 20 (u "Doña García Márquez") = u "Do_a_Garc_a_M_rquez" /\
  utf8_string_to_abif_token 20 (u "WRITE-IN: Jo Q. Public Junior") = u "wi_Jo_Q_Public_Junio" /\ plain 20 (u "DGM") /\ ~ plain 20 (u "WRITE-IN: Jo Q. Public Junior").
Proof. repeat split; try (vm_compute; reflexivity). - discriminate. - cbn; lia. - intros (_&_&H). vm_compute in H. discriminate. Qed.

(** A final newline survives; different names can have one token. *)
Theorem C53_characters_refuted : exists name, utf8_string_to_abif_token 20 name = name /\ In 10%N name.
Proof. exists (u "DGM" ++ [10%N]). split; [vm_compute; reflexivity|]. apply in_or_app. right. left. reflexivity. Qed.
Print Assumptions C53_characters_refuted.
Theorem C53_injective_refuted : exists a b, a <> b /\ utf8_string_to_abif_token 20 a = utf8_string_to_abif_token 20 b.
Proof. exists (u "Jo Q"), (u "Jo-Q"). split; [discriminate|vm_compute; reflexivity]. Qed.
Print Assumptions C53_injective_refuted.

(** ** C54 *)
(** [at_path v p x]: following the keys and positions p through dicts and lists leads from v to x. *)
Inductive at_path : pyval -> list atom -> pyval -> Prop :=
| here v : at_path v [] v
| in_dict l k x p y : In (k, x) l -> at_path x p y -> at_path (VDict l) (k :: p) y
| in_list l i x p y : nth_error l i = Some x -> at_path x p y -> at_path (VList l) (KInt (Z.of_nat i) :: p) y.

Definition pyval_ind' (P : pyval -> Prop) (H1 : forall a, P (VAtom a)) (H2 : P VNone) (H3 : forall s, P (VOther s)) (H4 : forall l, Forall P l -> P (VTuple l)) (H5 : forall l, P (VSet l))
  (H6 : forall l, Forall (fun kv => P (snd kv)) l -> P (VDict l)) (H7 : forall l, Forall P l -> P (VList l)) : forall v, P v :=
  fix go v := match v with
              | VAtom a => H1 a
              | VNone => H2
              | VOther s => H3 s
              | VTuple l => H4 l ((fix gl l : Forall P l := match l with [] => Forall_nil P | x :: r => Forall_cons x (go x) (gl r) end) l)
              | VSet l => H5 l
              | VDict l => H6 l ((fix gl l : Forall (fun kv => P (snd kv)) l := match l with [] => Forall_nil (fun kv => P (snd kv)) | x :: r => Forall_cons x (go (snd x)) (gl r) end) l)
              | VList l => H7 l ((fix gl l : Forall P l := match l with [] => Forall_nil P | x :: r => Forall_cons x (go x) (gl r) end) l)
              end.

(** Everything of the original is still there: sets as lists of their elements, dicts and lists with the same
    keys and as many elements, all other values as they were. *)
Theorem C54_kept : forall v p x, at_path v p x ->
  match x with
  | VSet l => at_path (clean_dict v) p (VList (map VAtom l))
  | VDict l => exists l', at_path (clean_dict v) p (VDict l') /\ map fst l' = map fst l
  | VList l => exists l', at_path (clean_dict v) p (VList l') /\ length l' = length l
  | other => at_path (clean_dict v) p other
  end.
Proof.
  assert (P : forall v p x, at_path v p x -> at_path (clean_dict v) p (clean_dict x)).
  { induction 1 as [v|l k x p y Hin H IH|l i x p y Hn H IH]; [constructor| |].
    - cbn [clean_dict]. apply (in_dict _ k (clean_dict x)); [|exact IH]. apply in_map_iff. exists (k, x). auto.
    - cbn [clean_dict]. apply (in_list _ i (clean_dict x)); [|exact IH]. rewrite nth_error_map, Hn. reflexivity. }
  intros v p x H. apply P in H. destruct x; cbn [clean_dict] in H; try exact H.
  - eexists. split; [exact H|]. rewrite map_map. reflexivity.
  - eexists. split; [exact H|]. apply map_length.
Qed.
Print Assumptions C54_kept.

(** Nothing new appears but the elements of sets, and no set is left. *)
Theorem C54_nothing_new : forall v p y, at_path (clean_dict v) p y ->
  (exists x, at_path v p x) \/ (exists q l i a, p = q ++ [KInt (Z.of_nat i)] /\ at_path v q (VSet l) /\ nth_error l i = Some a /\ y = VAtom a).
Proof.
  induction v as [a| |s|l F|l|l F|l F] using pyval_ind'; intros p y H; cbn [clean_dict] in H;
    try (inversion H; subst; left; eexists; constructor).
  - inversion H as [|?|l0 i x q z Hn Hp]; subst; [left; eexists; constructor|]. right. rewrite nth_error_map in Hn. destruct (nth_error l i) as [a|] eqn:E; [|discriminate]. apply some_inj in Hn. subst x.
    inversion Hp; subst. exists [], l, i, a. repeat split; auto. constructor.
  - inversion H as [|l0 k x q z Hin Hp|]; subst; [left; eexists; constructor|]. apply in_map_iff in Hin as ([k' x0]&E&Hin). cbn [fst snd] in E. injection E as -> <-.
    rewrite Forall_forall in F. destruct (F _ Hin _ _ Hp) as [(w&Hw)|(q'&l'&i&a&->&Hs&Ha&->)].
    + left. exists w. apply (in_dict _ k x0); assumption.
    + right. exists (k :: q'), l', i, a. repeat split; auto. apply (in_dict _ k x0); assumption.
  - inversion H as [|?|l0 i x q z Hn Hp]; subst; [left; eexists; constructor|]. rewrite nth_error_map in Hn. destruct (nth_error l i) as [x0|] eqn:E; [|discriminate]. apply some_inj in Hn. subst x.
    rewrite Forall_forall in F. destruct (F x0 (nth_error_In _ _ E) _ _ Hp) as [(w&Hw)|(q'&l'&j&a&->&Hs&Ha&->)].
    + left. exists w. apply (in_list _ i x0); assumption.
    + right. exists (KInt (Z.of_nat i) :: q'), l', j, a. repeat split; auto. apply (in_list _ i x0); assumption.
Qed.
Print Assumptions C54_nothing_new.
Theorem C54_no_sets : forall v p l, ~ at_path (clean_dict v) p (VSet l).
Proof.
  assert (P : forall w p l, at_path w p (VSet l) -> forall v, w = clean_dict v -> False).
  { intros w p l H. remember (VSet l) as x. induction H as [v|l0 k x p y Hin H IH|l0 i x p y Hn H IH]; intros v0 E; subst.
    - destruct v0; discriminate.
    - destruct v0; try discriminate. cbn [clean_dict] in E. injection E as ->. apply in_map_iff in Hin as ([k' x0]&E&_). injection E as _ E. apply (IH eq_refl x0). auto.
    - destruct v0; try discriminate; cbn [clean_dict] in E; injection E as ->; rewrite nth_error_map in Hn.
      + destruct (nth_error l1 i) as [a|]; [|discriminate]. apply some_inj in Hn. subst x. inversion H.
      + destruct (nth_error l1 i) as [x0|]; [|discriminate]. apply some_inj in Hn. apply (IH eq_refl x0). auto. }
  intros v p l H. apply (P _ _ _ H v eq_refl).
Qed.
Print Assumptions C54_no_sets.
Theorem C54_idempotent : forall v, clean_dict (clean_dict v) = clean_dict v.
Proof.
  induction v as [a| |s|l F|l|l F|l F] using pyval_ind'; cbn [clean_dict]; try reflexivity; f_equal; rewrite map_map.
  - apply map_ext. reflexivity.
  - apply map_ext_in. intros [k x] Hin. cbn [fst snd]. rewrite Forall_forall in F. f_equal. apply (F _ Hin).
  - apply map_ext_in. intros x Hin. rewrite Forall_forall in F. apply (F _ Hin).
Qed.
Print Assumptions C54_idempotent.

(** json.dumps accepts everything made of strings, numbers, None, lists, tuples and dicts. *)
Fixpoint jsonable (v : pyval) : bool :=
  match v with
  | VAtom _ | VNone | VOther _ => true
  | VSet _ => false
  | VTuple l | VList l => forallb jsonable l
  | VDict l => forallb (fun kv => jsonable (snd kv)) l
  end.
(** The cleaned value is accepted if and only if no tuple reachable through dicts and lists hides a set. *)
Theorem C54_serialisable : forall v, jsonable (clean_dict v) = true <-> (forall p l, at_path v p (VTuple l) -> jsonable (VTuple l) = true).
Proof.
  induction v as [a| |s|l F|l|l F|l F] using pyval_ind'; cbn [clean_dict].
  - split; [intros _ p l H; inversion H|reflexivity].
  - split; [intros _ p l H; inversion H|reflexivity].
  - split; [intros _ p l H; inversion H|reflexivity].
  - split; [intros H p l' Hp; inversion Hp; subst; exact H|]. intro H. apply (H [] l). constructor.
  - split; [intros _ p l' Hp; inversion Hp|]. intros _. cbn [jsonable]. apply forallb_forall. intros x Hx. apply in_map_iff in Hx as (a&<-&_). reflexivity.
  - cbn [jsonable]. rewrite forallb_forall. rewrite Forall_forall in F. split.
    + intros H p l' Hp. inversion Hp as [|l0 k x q z Hin Hq|]; subst. apply (proj1 (F _ Hin)) with (p := q); [|exact Hq]. apply (H (k, clean_dict x)). apply in_map_iff. exists (k, x). auto.
    + intros H [k y] Hin. apply in_map_iff in Hin as ([k' x]&E&Hin). cbn [fst snd] in E. injection E as -> <-. cbn [snd]. apply (proj2 (F _ Hin)). intros p l' Hp. apply (H (k :: p)). apply (in_dict _ k x); assumption.
  - cbn [jsonable]. rewrite forallb_forall. rewrite Forall_forall in F. split.
    + intros H p l' Hp. inversion Hp as [|?|l0 i x q z Hn Hq]; subst. apply nth_error_In in Hn as Hin. apply (proj1 (F _ Hin)) with (p := q); [|exact Hq]. apply (H (clean_dict x)). apply in_map. exact Hin.
    + intros H y Hin. apply in_map_iff in Hin as (x&<-&Hin). apply (proj2 (F _ Hin)). intros p l' Hp. destruct (In_nth_error _ _ Hin) as (i&Hn). apply (H (KInt (Z.of_nat i) :: p)). apply (in_list _ i x); assumption.
Qed.
Print Assumptions C54_serialisable.
Definition nested : pyval :=
  VDict [(KStr (u "rounds"), VList [VDict [(KStr (u "eliminated"), VSet [KStr (u "A"); KStr (u "B")]); (KStr (u "n"), VAtom (KInt 3))]; VNone]); (KInt 7, VOther (u "2.5"))].
Example C54_cleans : clean_dict nested =
  VDict [(KStr (u "rounds"), VList [VDict [(KStr (u "eliminated"), VList [VAtom (KStr (u "A")); VAtom (KStr (u "B"))]); (KStr (u "n"), VAtom (KInt 3))]; VNone]); (KInt 7, VOther (u "2.5"))] /\ jsonable nested = false /\
  at_path nested [KStr (u "rounds"); KInt 0; KStr (u "eliminated")] (VSet [KStr (u "A"); KStr (u "B")]).
Proof. split; [reflexivity|]. split; [reflexivity|]. eapply in_dict; [left; reflexivity|]. apply (in_list _ 0) with (x := VDict [(KStr (u "eliminated"), VSet [KStr (u "A"); KStr (u "B")]); (KStr (u "n"), VAtom (KInt 3))]); [reflexivity|]. eapply in_dict; [left; reflexivity|constructor]. Qed.
Theorem C54_tuple_refuted : exists v, jsonable (clean_dict v) = false.
Proof. exists (VList [VTuple [VSet [KInt 1]]]). reflexivity. Qed.
Print Assumptions C54_tuple_refuted.

(** ** C55 *)
(** v[k1][k2]... *)
Fixpoint get (p : list atom) (v : pyval) : result pyval :=
  match p with [] => Ok v | k :: r => bind (item v k) (get r) end.
(** Paths without negative positions. *)
Definition forward (p : list atom) : Prop := forall z, In (KInt z) p -> 0 <= z.
(** After some common steps the paths part. *)
Definition diverge (p q : list atom) : Prop := exists c k1 k2 r1 r2, p = c ++ k1 :: r1 /\ q = c ++ k2 :: r2 /\ k1 <> k2.

Lemma atom_eqb_spec a b : Bool.reflect (a = b) (atom_eqb a b).
Proof.
  destruct a as [s|x], b as [t|y]; cbn [atom_eqb]; try (constructor; discriminate).
  - destruct (str_eqb_spec s t); constructor; congruence.
  - destruct (Z.eqb_spec x y); constructor; congruence.
Qed.
Lemma vget_vset k k' v l : vget k (vset k' v l) = if atom_eqb k k' then Some v else vget k l.
Proof.
  induction l as [|[a w] l IH]; cbn [vset vget].
  - reflexivity.
  - destruct (atom_eqb_spec k' a) as [->|N1]; cbn [vget].
    + destruct (atom_eqb_spec k a); reflexivity.
    + rewrite IH. destruct (atom_eqb_spec k a) as [E1|E1], (atom_eqb_spec k k') as [E2|E2]; try congruence; reflexivity.
Qed.
Lemma replace_length {A} (x : A) l : forall n, length (replace_nth n x l) = length l.
Proof. induction l as [|y l IH]; intros [|n]; cbn; auto. Qed.
Lemma replace_same {A} (x : A) l : forall n, (n < length l)%nat -> nth_error (replace_nth n x l) n = Some x.
Proof. induction l as [|y l IH]; intros [|n] H; cbn in *; try lia; [reflexivity|]. apply IH. lia. Qed.
Lemma replace_other {A} (x : A) l : forall n m, n <> m -> nth_error (replace_nth n x l) m = nth_error l m.
Proof. induction l as [|y l IH]; intros [|n] [|m] H; cbn; try reflexivity; try congruence. apply IH. congruence. Qed.
Lemma seq_index_lt n z i : seq_index n z = Some i -> (i < n)%nat.
Proof. unfold seq_index. destruct ((0 <=? z) && (z <? Z.of_nat n)) eqn:E1; [intro H; apply some_inj in H; lia|]. destruct ((z <? 0) && (0 <=? Z.of_nat n + z)) eqn:E2; [intro H; apply some_inj in H; lia|discriminate]. Qed.
Lemma seq_index_fwd n z z' i : 0 <= z -> 0 <= z' -> seq_index n z = Some i -> seq_index n z' = Some i -> z = z'.
Proof. unfold seq_index. intros H H'. destruct ((0 <=? z) && (z <? Z.of_nat n)) eqn:E1; [|destruct ((z <? 0) && _) eqn:E2; [lia|discriminate]]. destruct ((0 <=? z') && (z' <? Z.of_nat n)) eqn:E3; [|destruct ((z' <? 0) && _) eqn:E4; [lia|discriminate]]. intros A B. apply some_inj in A, B. lia. Qed.

Lemma inside_same v k x y : item v k = Ok y -> (forall s, v <> VAtom (KStr s)) -> item (inside v k x) k = Ok x.
Proof.
  intros H Hs. destruct v as [[s|z]| |s|l|l|l|l]; cbn [item] in H; try discriminate; try (destruct k; discriminate).
  - destruct (Hs s eq_refl).
  - destruct k as [s|z]; [discriminate|]. cbn [inside item] in *. destruct (seq_index (length l) z) as [i|] eqn:E; [|discriminate]. cbn [item]. rewrite replace_length, E. cbn [of_option bind]. rewrite replace_same by (apply (seq_index_lt _ _ _ E)). reflexivity.
  - cbn [inside item]. destruct k; rewrite vget_vset; match goal with |- context [atom_eqb ?a ?a] => destruct (atom_eqb_spec a a); [reflexivity|congruence] end.
  - destruct k as [s|z]; [discriminate|]. cbn [inside item] in *. destruct (seq_index (length l) z) as [i|] eqn:E; [|discriminate]. cbn [item]. rewrite replace_length, E. cbn [of_option bind]. rewrite replace_same by (apply (seq_index_lt _ _ _ E)). reflexivity.
Qed.
Lemma item_dict l k : item (VDict l) k = of_option KeyError (vget k l). Proof. destruct k; reflexivity. Qed.
Lemma inside_dict l k x : inside (VDict l) k x = VDict (vset k x l). Proof. destruct k; reflexivity. Qed.
Lemma seq_other (l : list pyval) z z' x : z <> z' -> 0 <= z -> 0 <= z' -> forall i, seq_index (length l) z = Some i ->
  bind (of_option IndexError (seq_index (length (replace_nth i x l)) z')) (fun j => of_option IndexError (nth_error (replace_nth i x l) j)) =
  bind (of_option IndexError (seq_index (length l) z')) (fun j => of_option IndexError (nth_error l j)).
Proof.
  intros N H H' i E. rewrite replace_length. destruct (seq_index (length l) z') as [j|] eqn:E'; [|reflexivity]. cbn [of_option bind]. rewrite replace_other; [reflexivity|].
  intros ->. apply N. apply (seq_index_fwd _ _ _ _ H H' E E').
Qed.
Lemma inside_other v k k' x : k <> k' -> (forall z, k = KInt z -> 0 <= z) -> (forall z, k' = KInt z -> 0 <= z) -> item (inside v k x) k' = item v k'.
Proof.
  intros N H H'. destruct v as [[s|z]| |s|l|l|l|l]; try (destruct k; reflexivity).
  - destruct k as [s|z]; [reflexivity|]. cbn [inside]. destruct (seq_index (length l) z) as [i|] eqn:E; [|reflexivity]. destruct k' as [s'|z']; [reflexivity|]. cbn [item]. apply (seq_other l z z'); [congruence|apply H; reflexivity|apply H'; reflexivity|exact E].
  - rewrite inside_dict, !item_dict, vget_vset. destruct (atom_eqb_spec k' k); [congruence|reflexivity].
  - destruct k as [s|z]; [reflexivity|]. cbn [inside]. destruct (seq_index (length l) z) as [i|] eqn:E; [|reflexivity]. destruct k' as [s'|z']; [reflexivity|]. cbn [item]. apply (seq_other l z z'); [congruence|apply H; reflexivity|apply H'; reflexivity|exact E].
Qed.
Lemma assign_inside v k x v' : assign v k x = Ok v' -> v' = inside v k x /\ item v' k = Ok x /\ (forall s, v <> VAtom (KStr s)).
Proof.
  intro H. destruct v as [[s|z]| |s|l|l|l|l]; cbn [assign] in H; try discriminate; try (destruct k; discriminate).
  - assert (E : v' = VDict (vset k x l)) by (destruct k; apply ok_inj in H; auto). subst v'. rewrite inside_dict, item_dict, vget_vset. split; [reflexivity|]. split; [|discriminate]. destruct (atom_eqb_spec k k); [reflexivity|congruence].
  - destruct k as [s|z]; [discriminate|]. cbn [inside]. destruct (seq_index (length l) z) as [i|] eqn:E; [|discriminate]. cbn [of_option bind] in H. apply ok_inj in H. subst v'. split; [reflexivity|]. split; [|discriminate].
    cbn [item]. rewrite replace_length, E. cbn [of_option bind]. rewrite replace_same by (apply (seq_index_lt _ _ _ E)). reflexivity.
Qed.
Lemma modify_step v k p x v' : p <> [] -> modify_jabmod v (k :: p) x = Ok v' -> exists sub sub', item v k = Ok sub /\ modify_jabmod sub p x = Ok sub' /\ v' = inside v k sub'.
Proof.
  intros Hp H. destruct p as [|k2 p]; [congruence|]. change (modify_jabmod v (k :: k2 :: p) x) with (bind (item v k) (fun sub => bind (modify_jabmod sub (k2 :: p) x) (fun sub' => Ok (inside v k sub')))) in H.
  apply bind_ok in H as (sub&E1&H). apply bind_ok in H as (sub'&E2&H). apply ok_inj in H. eauto.
Qed.
Lemma modify_not_str p : forall s x v', modify_jabmod (VAtom (KStr s)) p x <> Ok v'.
Proof.
  induction p as [|k p IH]; intros s x v' H; [discriminate|]. destruct p as [|k2 p].
  - cbn in H. destruct k; discriminate.
  - destruct (modify_step _ _ (k2 :: p) _ _ ltac:(discriminate) H) as (sub&sub'&E1&E2&_). destruct k as [t|z]; [discriminate|]. cbn [item] in E1. destruct (seq_index (length s) z); [|discriminate]. cbn [of_option bind] in E1.
    destruct (nth_error s n); [|discriminate]. cbn [of_option bind] in E1. apply ok_inj in E1. subst sub. apply (IH _ _ _ E2).
Qed.

(** Reading the path gives the new value. *)
Theorem C55_written : forall p v x v', modify_jabmod v p x = Ok v' -> get p v' = Ok x.
Proof.
  induction p as [|k p IH]; intros v x v' H; [discriminate|]. destruct p as [|k2 p].
  - cbn [modify_jabmod] in H. apply assign_inside in H as (_&H&_). cbn [get]. rewrite H. reflexivity.
  - assert (Hs : forall s, v <> VAtom (KStr s)) by (intros s ->; apply (modify_not_str _ _ _ _ H)).
    destruct (modify_step _ _ (k2 :: p) _ _ ltac:(discriminate) H) as (sub&sub'&E1&E2&->).
    change (bind (item (inside v k sub') k) (get (k2 :: p)) = Ok x). rewrite (inside_same _ _ _ _ E1 Hs). cbn [bind]. apply (IH _ _ _ E2).
Qed.
Print Assumptions C55_written.

(** Reading a path that parts from it gives what it gave before, value or error. *)
Theorem C55_others_unchanged : forall p q v x v', modify_jabmod v p x = Ok v' -> forward p -> forward q -> diverge p q -> get q v' = get q v.
Proof.
  induction p as [|k p IH]; intros q v x v' H Fp Fq D; [discriminate|]. destruct D as (c&k1&k2&r1&r2&E1&E2&N).
  assert (Hk : forall z, k = KInt z -> 0 <= z) by (intros z ->; apply Fp; left; reflexivity).
  destruct c as [|k0 c]; cbn [app] in E1, E2; injection E1 as -> ->; subst q.
  - assert (Hi : exists y, v' = inside v k1 y).
    { destruct r1 as [|k3 r1]; [cbn [modify_jabmod] in H; apply assign_inside in H as (H&_); eauto|]. destruct (modify_step _ _ (k3 :: r1) _ _ ltac:(discriminate) H) as (?&y&_&_&->). eauto. }
    destruct Hi as (y&->). cbn [get]. rewrite (inside_other v k1 k2 y N Hk); [reflexivity|]. intros z ->. apply Fq. left; reflexivity.
  - assert (Hne : c ++ k1 :: r1 <> []) by (destruct c; discriminate).
    assert (Hs : forall s, v <> VAtom (KStr s)) by (intros s ->; apply (modify_not_str _ _ _ _ H)).
    destruct (modify_step _ _ _ _ _ Hne H) as (sub&sub'&E1&E2&->). cbn [get]. rewrite (inside_same _ _ _ _ E1 Hs), E1. cbn [bind].
    apply (IH _ _ _ _ E2); [intros z Hz; apply Fp; right; exact Hz|intros z Hz; apply Fq; right; exact Hz|]. exists c, k1, k2, r1, r2. auto.
Qed.
Print Assumptions C55_others_unchanged.

(** It succeeds if and only if the value holding the last key can be read and is a dict, or a list that has
    the position. *)
Definition holds_key (c : pyval) (k : atom) : Prop :=
  (exists l, c = VDict l) \/ (exists l z, c = VList l /\ k = KInt z /\ - Z.of_nat (length l) <= z < Z.of_nat (length l)).
Lemma assign_when c k x : (exists c', assign c k x = Ok c') <-> holds_key c k.
Proof.
  split.
  - intros (c'&H). destruct c as [[s|z]| |s|l|l|l|l]; cbn [assign] in H; try discriminate; try (destruct k; discriminate); [left; eauto|]. right. destruct k as [s|z]; [discriminate|]. exists l, z. split; [reflexivity|]. split; [reflexivity|].
    unfold seq_index in H. destruct ((0 <=? z) && (z <? Z.of_nat (length l))) eqn:E1; [lia|]. destruct ((z <? 0) && (0 <=? Z.of_nat (length l) + z)) eqn:E2; [lia|discriminate].
  - intros [(l&->)|(l&z&->&->&Hz)]; [destruct k; eexists; reflexivity|]. cbn [assign]. unfold seq_index. destruct ((0 <=? z) && (z <? Z.of_nat (length l))) eqn:E1; [eexists; reflexivity|]. destruct ((z <? 0) && (0 <=? Z.of_nat (length l) + z)) eqn:E2; [eexists; reflexivity|lia].
Qed.
Theorem C55_when : forall p k v x, (exists v', modify_jabmod v (p ++ [k]) x = Ok v') <-> exists c, get p v = Ok c /\ holds_key c k.
Proof.
  induction p as [|k0 p IH]; intros k v x.
  - cbn [app modify_jabmod get]. rewrite assign_when. split; [eauto|]. intros (c&E&H). apply ok_inj in E. subst c. exact H.
  - cbn [app get]. assert (Hne : p ++ [k] <> []) by (destruct p; discriminate). split.
    + intros (v'&H). destruct (modify_step _ _ _ _ _ Hne H) as (sub&sub'&E1&E2&_). rewrite E1. cbn [bind]. apply (IH k sub x). eauto.
    + intros (c&E&H). apply bind_ok in E as (sub&E1&E2). destruct (proj2 (IH k sub x)) as (sub'&E3); [eauto|]. exists (inside v k0 sub').
      destruct (p ++ [k]) as [|k3 q] eqn:Eq; [congruence|]. change (bind (item v k0) (fun sub => bind (modify_jabmod sub (k3 :: q) x) (fun sub' => Ok (inside v k0 sub'))) = Ok (inside v k0 sub')). rewrite E1. cbn [bind]. rewrite E3. reflexivity.
Qed.
Print Assumptions C55_when.

Example C55_demo :
  let v := VDict [(KStr (u "metadata"), VDict [(KStr (u "ballotcount"), VAtom (KInt 9))]); (KStr (u "votelines"), VList [VDict [(KStr (u "qty"), VAtom (KInt 4))]; VDict [(KStr (u "qty"), VAtom (KInt 5))]])] in
  let p := [KStr (u "votelines"); KInt 1; KStr (u "qty")] in let q := [KStr (u "votelines"); KInt 0; KStr (u "qty")] in
  exists v', modify_jabmod v p (VAtom (KInt 7)) = Ok v' /\ get p v' = Ok (VAtom (KInt 7)) /\ get q v' = Ok (VAtom (KInt 4)) /\ forward p /\ forward q /\ diverge p q.
Proof.
  cbv zeta. eexists. split; [reflexivity|]. split; [reflexivity|]. split; [reflexivity|]. split; [|split].
  - intros z Hz. repeat destruct Hz as [E|Hz]; try discriminate; try (injection E as <-; lia); destruct Hz.
  - intros z Hz. repeat destruct Hz as [E|Hz]; try discriminate; try (injection E as <-; lia); destruct Hz.
  - exists [KStr (u "votelines")], (KInt 1), (KInt 0), [KStr (u "qty")], [KStr (u "qty")]. repeat split. discriminate.
Qed.
(** A negative position and the position it stands for name the same element. *)
Theorem C55_negative_refuted : exists v p q x v', diverge p q /\ modify_jabmod v p x = Ok v' /\ get q v' <> get q v.
Proof.
  exists (VList [VNone; VNone]), [KInt (-1)], [KInt 1], (VAtom (KInt 5)). eexists. split; [exists [], (KInt (-1)), (KInt 1), [], []; repeat split; discriminate|]. split; [reflexivity|discriminate].
Qed.
Print Assumptions C55_negative_refuted.
