(** * PosixFacts: facts about path resolution *)

From Coq Require Import Lia.
From Verif Require Import PyBase PyFacts UrlText UrlFacts FetchModel PosixModel.

Lemma place_eqb_spec p q : reflect (p = q) (place_eqb p q).
Proof.
  revert q. induction p as [|x p IH]; intros [|y q]; cbn [place_eqb]; try (constructor; congruence).
  destruct (str_eqb_spec x y) as [->|n]; [|constructor; congruence]. cbn [andb]. destruct (IH q) as [->|n]; constructor; congruence.
Qed.
Lemma put_same p n t : put p n t p = n.
Proof. unfold put. destruct (place_eqb_spec p p); congruence. Qed.
Lemma put_other p n t q : q <> p -> put p n t q = t q.
Proof. unfold put. destruct (place_eqb_spec q p); congruence. Qed.
Lemma at_put_same p n t : p <> [] -> at_place (put p n t) p = n.
Proof. destruct p; [congruence|]. intros _. apply (put_same (s :: p)). Qed.
Lemma at_put_other p n t q : q <> p -> at_place (put p n t) q = at_place t q.
Proof. intro H. destruct q; [reflexivity|]. exact (put_other p n t _ H). Qed.

(** A tree in which everything lies in a directory. *)
Definition well_formed (t : tree) : Prop := forall p c, t (p ++ [c]) <> None -> at_place t p = Some NDir.

Lemma at_wf t p c : well_formed t -> at_place t (p ++ [c]) <> None -> at_place t p = Some NDir.
Proof. intros H1 H2. apply (H1 p c). destruct (p ++ [c]) eqn:E; [destruct p; discriminate E|exact H2]. Qed.
Lemma wf_above t p q : well_formed t -> q <> [] -> at_place t (p ++ q) <> None -> at_place t p = Some NDir.
Proof.
  intros W. revert p. induction q as [|c q IH]; intros p Hq H; [congruence|]. destruct q as [|d q]; [apply (at_wf t p c W H)|].
  apply (at_wf t p c W). assert (E : at_place t (p ++ [c]) = Some NDir) by (apply IH; [discriminate|]; rewrite <- app_assoc; exact H). rewrite E. discriminate.
Qed.
Lemma wf_put t p c n : well_formed t -> at_place t p = Some NDir -> at_place t (p ++ [c]) <> Some NDir -> well_formed (put (p ++ [c]) (Some n) t).
Proof.
  intros W Hd Hn q d H. destruct (place_eqb_spec (q ++ [d]) (p ++ [c])) as [E|E].
  - apply app_inj_tail in E as [-> _]. rewrite at_put_other; [exact Hd|]. intro E. apply (f_equal (@length _)) in E. rewrite app_length in E. cbn in E. lia.
  - rewrite put_other in H by exact E. pose proof (W q d H) as Hq. rewrite at_put_other; [exact Hq|]. intros ->. congruence.
Qed.

(** ** Names *)
Lemma split_on_none c s : ~ In c s -> split_on c s = [s].
Proof.
  induction s as [|x s IH]; intro H; [reflexivity|]. cbn [split_on]. destruct (N.eqb_spec x c) as [->|n]; [exfalso; apply H; left; reflexivity|]. rewrite IH by (intro Hx; apply H; right; exact Hx). reflexivity.
Qed.
Lemma split_on_cons c s : exists w ws, split_on c s = w :: ws.
Proof. induction s as [|x s (w&ws&E)]; cbn [split_on]; [eexists; eexists; reflexivity|]. destruct (x =? c)%N; [eexists; eexists; reflexivity|]. rewrite E. eexists; eexists; reflexivity. Qed.
Lemma split_on_sep c a r : split_on c (a ++ c :: r) = split_on c a ++ split_on c r.
Proof.
  induction a as [|x a IH]; cbn [app split_on]; [rewrite N.eqb_refl; reflexivity|].
  destruct (x =? c)%N; [rewrite IH; reflexivity|]. rewrite IH. destruct (split_on_cons c a) as (w&ws&->). reflexivity.
Qed.
Lemma split_on_pieces c s w : In w (split_on c s) -> ~ In c w.
Proof.
  revert w. induction s as [|x s IH]; intros w H; cbn [split_on] in H; [destruct H as [<-|[]]; intros []|].
  destruct (N.eqb_spec x c) as [->|n]; [destruct H as [<-|H]; [intros []|apply IH, H]|].
  destruct (split_on_cons c s) as (w0&ws&E). rewrite E in *. destruct H as [<-|H]; [|apply IH; right; exact H]. intros [H|H]; [congruence|]. revert H. apply IH. left; reflexivity.
Qed.
Lemma names_join l : l <> [] -> (forall c, In c l -> ~ In slash c) -> names (join_slash l) = l.
Proof.
  intros Hn H. induction l as [|c l IH]; [congruence|]. destruct l as [|d l]; [apply split_on_none, H; left; reflexivity|].
  change (join_slash (c :: d :: l)) with (c ++ slash :: join_slash (d :: l)). unfold names. rewrite split_on_sep, (split_on_none slash c) by (apply H; left; reflexivity).
  cbn [app]. f_equal. apply IH; [discriminate|]. intros x Hx. apply H. right; exact Hx.
Qed.
Lemma plain_name_spec c : plain_name c = true <-> c <> [] /\ c <> dot /\ c <> dotdot /\ ~ In slash c.
Proof.
  unfold plain_name. rewrite !andb_true_iff, !negb_true_iff.
  assert (E : existsb (N.eqb slash) c = false <-> ~ In slash c).
  { split; intro H; [|destruct (existsb (N.eqb slash) c) eqn:E; [|reflexivity]; exfalso; apply existsb_exists in E as (x&Hx&E); apply N.eqb_eq in E; subst x; exact (H Hx)].
    intro Hi. assert (existsb (N.eqb slash) c = true) by (apply existsb_exists; exists slash; split; [exact Hi|reflexivity]). congruence. }
  rewrite E. destruct (str_eqb_spec c []), (str_eqb_spec c dot), (str_eqb_spec c dotdot); intuition congruence.
Qed.
(** names without '', '.' *)
Definition solid (c : str) : bool := negb (str_eqb c [] || str_eqb c dot).
Lemma norm_plain l : ~ In dotdot l -> forall acc, norm_names l acc = acc ++ filter solid l.
Proof.
  induction l as [|c l IH]; intros H acc; cbn [norm_names filter]; [rewrite app_nil_r; reflexivity|]. unfold solid at 1.
  destruct (str_eqb c [] || str_eqb c dot); cbn [negb]; [apply IH; intro Hx; apply H; right; exact Hx|].
  destruct (str_eqb_spec c dotdot) as [->|n]; [exfalso; apply H; left; reflexivity|]. rewrite IH by (intro Hx; apply H; right; exact Hx). rewrite <- app_assoc. reflexivity.
Qed.

(** ** Walking *)
Lemma walk_nil n t f cur : walk n t f cur [] = Ok cur. Proof. destruct n; reflexivity. Qed.
Lemma walk_cons n t f cur c r : walk n t f cur (c :: r) =
  if str_eqb c [] || str_eqb c dot then walk n t f cur r
  else if str_eqb c dotdot then walk n t f (removelast cur) r
  else match at_place t (cur ++ [c]) with
       | None => match r with [] => Ok (cur ++ [c]) | _ => Err FileNotFoundError end
       | Some NDir => walk n t f (cur ++ [c]) r
       | Some (NFile _) => match r with [] => Ok (cur ++ [c]) | _ => Err OSError end
       | Some (NLink target) =>
           if match r with [] => negb f | _ => false end then Ok (cur ++ [c])
           else match n with O => Err OSError | S k => walk k t f (if is_abs target then [] else cur) (names target ++ r) end
       end.
Proof. destruct n; reflexivity. Qed.
(** Down existing directories. *)
Lemma walk_dirs n t f r : well_formed t -> forall l cur, ~ In dotdot l -> at_place t (cur ++ filter solid l) = Some NDir ->
  walk n t f cur (l ++ r) = walk n t f (cur ++ filter solid l) r.
Proof.
  intros W. induction l as [|c l IH]; intros cur H Hd; cbn [app]; [cbn [filter]; rewrite app_nil_r; reflexivity|]. rewrite walk_cons. cbn [filter] in *. unfold solid at 1. unfold solid at 1 in Hd.
  destruct (str_eqb c [] || str_eqb c dot); cbn [negb] in *; [apply IH; [intro Hx; apply H; right; exact Hx|exact Hd]|].
  destruct (str_eqb_spec c dotdot) as [->|n0]; [exfalso; apply H; left; reflexivity|].
  assert (E : at_place t (cur ++ [c]) = Some NDir).
  { change (c :: filter solid l) with ([c] ++ filter solid l) in Hd. rewrite app_assoc in Hd. destruct (filter solid l) as [|d q]; [rewrite app_nil_r in Hd; exact Hd|]. apply (wf_above t _ (d :: q) W); [discriminate|congruence]. }
  rewrite E. change (c :: filter solid l) with ([c] ++ filter solid l) in Hd |- *. rewrite app_assoc in Hd |- *. apply IH; [intro Hx; apply H; right; exact Hx|exact Hd].
Qed.
(** Up again. *)
Lemma walk_ups n t f r : forall s base, walk n t f (base ++ s) (map (fun _ => dotdot) s ++ r) = walk n t f base r.
Proof.
  intro s. induction s as [|x s IH] using rev_ind; intro base; [cbn [map app]; rewrite app_nil_r; reflexivity|].
  assert (E : map (fun _ => dotdot) (s ++ [x]) = dotdot :: map (fun _ : str => dotdot) s).
  { clear. induction s as [|y s IH]; [reflexivity|]. cbn [map app]. f_equal. exact IH. }
  rewrite E. cbn [app]. rewrite walk_cons. replace (str_eqb dotdot [] || str_eqb dotdot dot) with false by reflexivity. rewrite str_eqb_refl, app_assoc, removelast_last. apply IH.
Qed.
(** To a plain last name that is no followed link. *)
Lemma walk_last n t f cur c : plain_name c = true -> match at_place t (cur ++ [c]) with Some (NLink _) => f = false | _ => True end -> walk n t f cur [c] = Ok (cur ++ [c]).
Proof.
  intros H Hn. apply plain_name_spec in H as (H1&H2&H3&_). rewrite walk_cons. destruct (str_eqb_spec c []); [congruence|]. destruct (str_eqb_spec c dot); [congruence|]. cbn [orb]. destruct (str_eqb_spec c dotdot); [congruence|].
  destruct (at_place t (cur ++ [c])) as [[|b|g]|]; try reflexivity; [apply walk_nil|]. rewrite Hn. reflexivity.
Qed.

(** A path without '..' that ends in a name. *)
Definition simple_path (p : str) : Prop := ~ In dotdot (names p) /\ exists before c, names p = before ++ [c] /\ plain_name c = true.
Lemma simple_nonempty p : simple_path p -> p <> [].
Proof. intros (_&b&c&E&H) ->. cbn in E. destruct b as [|? [|? ?]]; injection E as <-; try discriminate; discriminate H. Qed.
Lemma plain_solid c : plain_name c = true -> solid c = true.
Proof. intro H. apply plain_name_spec in H as (H1&H2&_). unfold solid. destruct (str_eqb_spec c []); [congruence|]. destruct (str_eqb_spec c dot); [congruence|]. reflexivity. Qed.
Lemma simple_abs cwd p : simple_path p -> exists before c, names p = before ++ [c] /\ plain_name c = true /\ ~ In dotdot before /\ abs_names cwd p = (start_of cwd p ++ filter solid before) ++ [c].
Proof.
  intros (H&before&c&E&Hc). exists before, c. split; [exact E|]. split; [exact Hc|]. split; [intro Hx; apply H; rewrite E; apply in_or_app; left; exact Hx|].
  unfold abs_names. rewrite norm_plain by exact H. rewrite E, filter_app. cbn [filter]. rewrite (plain_solid c Hc), app_assoc. reflexivity.
Qed.
(** It leads where its text says, if its parents are directories. *)
Lemma resolve_simple cwd t f p : well_formed t -> simple_path p -> at_place t (removelast (abs_names cwd p)) = Some NDir ->
  match at_place t (abs_names cwd p) with Some (NLink _) => f = false | _ => True end -> resolve cwd t f p = Ok (abs_names cwd p).
Proof.
  intros W Hs Hd Hn. pose proof (simple_nonempty p Hs) as Hp. destruct (simple_abs cwd p Hs) as (before&c&E&Hc&Hb&Ea). rewrite Ea in *. rewrite removelast_last in Hd.
  unfold resolve. destruct p; [congruence|]. rewrite E, (walk_dirs _ t f [c] W before _ Hb Hd). apply walk_last; assumption.
Qed.
Lemma presolve_simple cwd t f p : well_formed t -> simple_path p -> at_place t (removelast (abs_names cwd p)) = Some NDir ->
  match at_place t (abs_names cwd p) with Some (NLink _) => f = false | _ => True end -> presolve cwd t f (is_abs p) (pnames p) = Ok (abs_names cwd p).
Proof.
  intros W Hs Hd Hn. destruct (simple_abs cwd p Hs) as (before&c&E&Hc&Hb&Ea). rewrite Ea in *. rewrite removelast_last in Hd.
  unfold presolve, pnames. fold (start_of cwd p). rewrite E, filter_app. change (filter (fun c => negb (str_eqb c [] || str_eqb c dot)) before) with (filter solid before).
  cbn [filter]. change (negb (str_eqb c [] || str_eqb c dot)) with (solid c). rewrite (plain_solid c Hc).
  assert (Ef : filter solid (filter solid before) = filter solid before). { clear. induction before as [|x l IH]; [reflexivity|]. cbn [filter]. destruct (solid x) eqn:E; [|exact IH]. cbn [filter]. rewrite E, IH. reflexivity. }
  rewrite (walk_dirs _ t f [c] W (filter solid before)); [|intro Hx; apply filter_In in Hx as [Hx _]; exact (Hb Hx)|rewrite Ef; exact Hd]. rewrite Ef. apply walk_last; assumption.
Qed.
(** A directory without '..' in its path. *)
Lemma resolve_dir cwd t f p : well_formed t -> p <> [] -> ~ In dotdot (names p) -> at_place t (abs_names cwd p) = Some NDir -> resolve cwd t f p = Ok (abs_names cwd p).
Proof.
  intros W Hp H Hd. unfold abs_names in *. rewrite norm_plain in * by exact H. unfold resolve. destruct p; [congruence|]. pose proof (walk_dirs max_links t f [] W _ _ H Hd) as E. rewrite app_nil_r, walk_nil in E. exact E.
Qed.

(** ** Joining *)
Lemma rev_last_case (a : str) : a = [] \/ (exists a', a = a' ++ [slash]) \/ (a <> [] /\ match rev a with [] => False | d :: _ => (d =? slash)%N = false end).
Proof.
  destruct a as [|x a] using rev_ind; [left; reflexivity|]. right. rewrite rev_app_distr. cbn [rev app]. destruct (N.eqb_spec x slash) as [->|n]; [left; exists a; reflexivity|]. right. split; [destruct a; discriminate|reflexivity].
Qed.
Lemma join_names a b : b <> [] -> is_abs b = false -> exists l, names (path_join a b) = l ++ names b /\ filter solid l = filter solid (names a) /\ (In dotdot l -> In dotdot (names a)).
Proof.
  intros Hb Hab. unfold path_join. destruct b as [|c b]; [congruence|]. cbn [is_abs] in Hab. rewrite Hab.
  destruct (rev_last_case a) as [->|[(a'&->)|(Ha&Hr)]].
  - exists []. cbn [rev app]. split; [reflexivity|]. split; [reflexivity|intros []].
  - rewrite rev_app_distr. cbn [rev app]. rewrite N.eqb_refl. exists (names a'). rewrite <- app_assoc. cbn [app]. split; [apply split_on_sep|]. unfold names. rewrite (split_on_sep slash a' []), filter_app. cbn [split_on filter]. split; [symmetry; apply app_nil_r|]. intro H. apply in_or_app. left; exact H.
  - destruct (rev a) as [|d ra]; [destruct Hr|]. rewrite Hr. exists (names a). split; [apply split_on_sep|]. split; [reflexivity|auto].
Qed.
Lemma is_abs_join a b : b <> [] -> is_abs b = false -> is_abs (path_join a b) = is_abs a.
Proof.
  intros Hb Hab. unfold path_join. destruct b as [|c b]; [congruence|]. cbn [is_abs] in Hab. rewrite Hab. destruct (rev_last_case a) as [->|[(a'&->)|(Ha&Hr)]].
  - cbn [rev is_abs]. exact Hab.
  - rewrite rev_app_distr. cbn [rev app]. rewrite N.eqb_refl. destruct a'; reflexivity.
  - destruct (rev a) as [|d ra]; [destruct Hr|]. rewrite Hr. destruct a; [congruence|]. reflexivity.
Qed.
Lemma plain_is_abs c : plain_name c = true -> is_abs c = false.
Proof. intro H. apply plain_name_spec in H as (_&_&_&H). destruct c as [|x c]; [reflexivity|]. cbn [is_abs]. destruct (N.eqb_spec x slash) as [->|n]; [exfalso; apply H; left; reflexivity|reflexivity]. Qed.
Lemma join_plain cwd a c : ~ In dotdot (names a) -> plain_name c = true -> simple_path (path_join a c) /\ abs_names cwd (path_join a c) = abs_names cwd a ++ [c].
Proof.
  intros Ha Hc. pose proof (plain_is_abs c Hc) as Hab. pose proof Hc as Hc'. apply plain_name_spec in Hc' as (Hn&Hd&Hdd&Hs). destruct (join_names a c Hn Hab) as (l&E&Ef&Hi).
  assert (En : names c = [c]) by (apply split_on_none, Hs). rewrite En in E.
  assert (Hl : ~ In dotdot (l ++ [c])). { intro H. apply in_app_or in H as [H|[H|[]]]; [exact (Ha (Hi H))|congruence]. }
  split; [split; [rewrite E; exact Hl|exists l, c; auto]|]. unfold abs_names, start_of. rewrite (is_abs_join a c Hn Hab), E, !norm_plain by assumption. rewrite filter_app, Ef. cbn [filter]. rewrite (plain_solid c Hc), app_assoc. reflexivity.
Qed.
(** The same for a longer second part. *)
Lemma join_simple a b : ~ In dotdot (names a) -> simple_path b -> is_abs b = false -> simple_path (path_join a b).
Proof.
  intros Ha (Hb&before&c&E&Hc) Hab. assert (Hn : b <> []) by (apply simple_nonempty; split; [exact Hb|eauto]). destruct (join_names a b Hn Hab) as (l&En&_&Hi). split.
  - rewrite En. intro H. apply in_app_or in H as [H|H]; [exact (Ha (Hi H))|exact (Hb H)].
  - exists (l ++ before), c. rewrite En, E, app_assoc. auto.
Qed.

(** ** Relative paths *)
Lemma cut_common_spec p : forall q s r, cut_common p q = (s, r) -> exists common, p = common ++ s /\ q = common ++ r.
Proof.
  induction p as [|x p IH]; intros q s r H; cbn [cut_common] in H; [injection H as <- <-; exists []; auto|]. destruct q as [|y q]; [injection H as <- <-; exists []; auto|].
  destruct (str_eqb_spec x y) as [->|n]; [|injection H as <- <-; exists []; auto]. destruct (IH q s r H) as (common&->&->). exists (y :: common). auto.
Qed.
Lemma is_abs_join_slash l : (forall c, In c l -> c <> [] /\ ~ In slash c) -> is_abs (join_slash l) = false.
Proof.
  destruct l as [|c l]; [reflexivity|]. intro H. destruct (H c (or_introl eq_refl)) as (H1&H2). destruct c as [|x c]; [congruence|].
  assert (E : (x =? slash)%N = false) by (destruct (N.eqb_spec x slash) as [->|]; [exfalso; apply H2; left; reflexivity|reflexivity]).
  destruct l; cbn [join_slash is_abs app]; exact E.
Qed.
(** The names a lexical place is made of. *)
Definition good_place (p : place) : Prop := forall c, In c p -> plain_name c = true.
Lemma good_abs cwd p : good_place cwd -> ~ In dotdot (names p) -> good_place (abs_names cwd p).
Proof.
  intros Hw H c Hc. unfold abs_names in Hc. rewrite norm_plain in Hc by exact H. apply in_app_or in Hc as [Hc|Hc]; [unfold start_of in Hc; destruct (is_abs p); [destruct Hc|apply Hw, Hc]|].
  apply filter_In in Hc as [Hc Hs]. apply plain_name_spec. unfold solid in Hs. rewrite negb_true_iff in Hs. apply orb_false_iff in Hs as [H1 H2]. repeat split; [intros ->; discriminate H1|intros ->; discriminate H2|intros ->; exact (H Hc)|exact (split_on_pieces _ _ _ Hc)].
Qed.
(** Where a link made with relpath leads, from the directory it was made for. *)
Lemma relpath_walk cwd t n f path start target D c : well_formed t -> good_place (abs_names cwd path) -> relpath cwd path start = Ok target -> abs_names cwd start = D ->
  abs_names cwd path = c -> at_place t c <> Some NDir -> at_place t D = Some NDir -> at_place t (removelast c) = Some NDir -> c <> [] -> match at_place t c with Some (NLink _) => f = false | _ => True end ->
  target <> [] /\ is_abs target = false /\ walk n t f D (names target) = Ok c.
Proof.
  intros W Hg Hr ED Ec Hnd HD Hpar Hne Hn. unfold relpath in Hr. destruct path; [discriminate Hr|]. destruct (cut_common (abs_names cwd start) (abs_names cwd (n0 :: path))) as (s&r) eqn:E.
  apply cut_common_spec in E as (common&E1&E2). rewrite ED in E1. rewrite Ec in E2, Hg.
  assert (Hrn : r <> []). { intros ->. rewrite app_nil_r in E2. subst common. apply Hnd. destruct s as [|x s]; [rewrite app_nil_r in E1; rewrite <- E1; exact HD|]. apply (wf_above t _ (x :: s) W); [discriminate|]. rewrite <- E1, HD. discriminate. }
  assert (Hl : map (fun _ => dotdot) s ++ r <> []) by (intro X; apply app_eq_nil in X as [_ X]; congruence).
  assert (Et : forall l : list str, l <> [] -> match l with [] => dot | x :: xs => join_slash (x :: xs) end = join_slash l) by (intros [|? ?]; [congruence|reflexivity]).
  rewrite (Et _ Hl) in Hr. clear Et. injection Hr as <-.
  assert (Hns : forall x, In x (map (fun _ => dotdot) s ++ r) -> x <> [] /\ ~ In slash x).
  { intros x Hx. apply in_app_or in Hx as [Hx|Hx].
    - apply in_map_iff in Hx as (?&<-&_). split; [discriminate|]. intros [X|[X|[]]]; discriminate X.
    - specialize (Hg x). rewrite E2 in Hg. specialize (Hg (in_or_app _ _ _ (or_intror Hx))). apply plain_name_spec in Hg as (?&_&_&?). auto. }
  split; [|split].
  - intro X. assert (N1 : names (join_slash (map (fun _ => dotdot) s ++ r)) = [[]]) by (rewrite X; reflexivity). rewrite names_join in N1 by (try exact Hl; intros x Hx; apply Hns, Hx).
    assert (In [] (map (fun _ => dotdot) s ++ r)) as Y by (rewrite N1; left; reflexivity). apply Hns in Y. destruct Y; congruence.
  - apply is_abs_join_slash. exact Hns.
  - rewrite names_join by (try exact Hl; intros x Hx; apply Hns, Hx). rewrite E1, walk_ups.
    destruct r as [|x r] using rev_ind; [congruence|]. clear IHr. rewrite app_assoc in E2. rewrite E2, removelast_last in Hpar.
    assert (Hgr : forall y, In y r -> plain_name y = true). { intros y Hy. apply Hg. rewrite E2. apply in_or_app. left. apply in_or_app. right; exact Hy. }
    assert (Ef : filter solid r = r). { clear - Hgr. induction r as [|y r IH]; [reflexivity|]. cbn [filter]. rewrite (plain_solid y) by (apply Hgr; left; reflexivity). f_equal. apply IH. intros z Hz. apply Hgr. right; exact Hz. }
    rewrite (walk_dirs n t f [x] W r common); [|intro X; apply Hgr in X; apply plain_name_spec in X as (_&_&X&_); congruence|rewrite Ef; exact Hpar]. rewrite Ef, E2. apply walk_last.
    + apply Hg. rewrite E2. apply in_or_app. right. left. reflexivity.
    + rewrite <- E2. exact Hn.
Qed.
