(** * PropsExtfileMore: C59 for paths with '..', and for a place that is taken by a directory *)

From Coq Require Import Lia.
From Verif Require Import PyBase PyFacts UrlText UrlFacts FetchModel PosixModel PosixFacts Jabmod ParserModel WriterModel NameqModel DebtallyModel ConvertModel ExtfileModel PropsExtfile.
Local Open Scope Z_scope.

(** Going from the place cur along these names ('' and '.' stay, '..' goes up), one meets directories only: nothing is missing and no symbolic link is on the way. *)
Fixpoint passes (t : tree) (cur : place) (l : list str) : Prop :=
  match l with
  | [] => True
  | c :: r => if str_eqb c [] || str_eqb c dot then passes t cur r
              else if str_eqb c dotdot then passes t (removelast cur) r
              else at_place t (cur ++ [c]) = Some NDir /\ passes t (cur ++ [c]) r
  end.
Lemma norm_app l : forall r acc, norm_names (l ++ r) acc = norm_names r (norm_names l acc).
Proof. induction l as [|c l IH]; intros r acc; [reflexivity|]. cbn [app norm_names]. destruct (str_eqb c [] || str_eqb c dot); [apply IH|]. destruct (str_eqb c dotdot); apply IH. Qed.
Lemma norm_solid l : forall acc, norm_names (filter solid l) acc = norm_names l acc.
Proof.
  induction l as [|c l IH]; intro acc; [reflexivity|]. cbn [filter norm_names]. unfold solid at 1. destruct (str_eqb c [] || str_eqb c dot) eqn:E; cbn [negb]; [apply IH|]. cbn [norm_names]. rewrite E. destruct (str_eqb c dotdot); apply IH.
Qed.
Lemma passes_solid t l : forall cur, passes t cur (filter solid l) <-> passes t cur l.
Proof.
  induction l as [|c l IH]; intro cur; [reflexivity|]. cbn [filter passes]. unfold solid at 1. destruct (str_eqb c [] || str_eqb c dot) eqn:E; cbn [negb]; [apply IH|]. cbn [passes]. rewrite E. destruct (str_eqb c dotdot); [apply IH|]. rewrite IH. reflexivity.
Qed.
Lemma passes_walk n t f r l : forall cur, passes t cur l -> walk n t f cur (l ++ r) = walk n t f (norm_names l cur) r.
Proof.
  induction l as [|c l IH]; intros cur H; [reflexivity|]. cbn [app norm_names]. rewrite walk_cons. cbn [passes] in H. destruct (str_eqb c [] || str_eqb c dot); [apply IH, H|]. destruct (str_eqb c dotdot); [apply IH, H|]. destruct H as (E&H). rewrite E. apply IH, H.
Qed.
Lemma passes_frame t t' P l : (forall q, q <> P -> t' q = t q) -> at_place t P <> Some NDir -> forall cur, passes t cur l -> passes t' cur l.
Proof.
  intros Hf Hn. induction l as [|c l IH]; intros cur H; [exact I|]. cbn [passes] in *. destruct (str_eqb c [] || str_eqb c dot); [apply IH, H|]. destruct (str_eqb c dotdot); [apply IH, H|]. destruct H as (E&H). split; [|apply IH, H].
  rewrite (at_frame t t' P); [exact E|exact Hf|]. intros <-. congruence.
Qed.
Lemma good_norm l : (forall c, In c l -> ~ In slash c) -> forall acc, good_place acc -> good_place (norm_names l acc).
Proof.
  induction l as [|c l IH]; intros Hl acc Ha; [exact Ha|]. cbn [norm_names]. assert (Hl' : forall x, In x l -> ~ In slash x) by (intros x Hx; apply Hl; right; exact Hx). destruct (str_eqb c [] || str_eqb c dot) eqn:E; [apply IH; assumption|].
  destruct (str_eqb_spec c dotdot) as [->|Nd].
  - apply IH; [exact Hl'|]. intros x Hx. apply Ha. destruct acc as [|y acc] using rev_ind; [destruct Hx|]. rewrite removelast_last in Hx. apply in_or_app. left; exact Hx.
  - apply IH; [exact Hl'|]. intros x Hx. apply in_app_or in Hx as [Hx|[<-|[]]]; [exact (Ha x Hx)|]. apply plain_name_spec. apply orb_false_elim in E as (E1&E2). split; [|split; [|split]]; [intros ->; discriminate E1|intros ->; discriminate E2|exact Nd|apply Hl; left; reflexivity].
Qed.
Lemma good_abs_any cwd p : good_place cwd -> good_place (abs_names cwd p).
Proof.
  intro H. unfold abs_names. apply good_norm; [intros c Hc; exact (split_on_pieces _ _ _ Hc)|]. unfold start_of. destruct (is_abs p); [intros c []|exact H].
Qed.
(** The place of a name below a directory. *)
Lemma below cwd t f ab loc D : ab <> [] -> passes t (start_of cwd ab) (names ab) -> resolve cwd t f ab = Ok D -> plain_name loc = true ->
  D = abs_names cwd ab /\ path_join ab loc <> [] /\ (forall n g, walk n t g (start_of cwd (path_join ab loc)) (names (path_join ab loc)) = walk n t g D [loc]) /\
  (forall n g, walk n t g (start_of cwd (path_join ab loc)) (pnames (path_join ab loc)) = walk n t g D [loc]).
Proof.
  intros Hne Hp Hr Hl. pose proof (plain_is_abs loc Hl) as Hab. pose proof Hl as Hl'. apply plain_name_spec in Hl' as (Hn&_&_&Hsl).
  assert (ED : D = abs_names cwd ab). { unfold resolve in Hr. destruct ab as [|c0 ab0]; [congruence|]. pose proof (passes_walk max_links t f [] _ _ Hp) as E. rewrite app_nil_r in E. rewrite E, walk_nil in Hr. injection Hr as <-. reflexivity. }
  destruct (join_names ab loc Hn Hab) as (l&E&Ef&_). assert (En : names loc = [loc]) by (apply split_on_none, Hsl). rewrite En in E.
  assert (Es : start_of cwd (path_join ab loc) = start_of cwd ab) by (unfold start_of; rewrite (is_abs_join ab loc Hn Hab); reflexivity).
  assert (Pl : passes t (start_of cwd ab) l) by (apply passes_solid; rewrite Ef; apply passes_solid; exact Hp).
  assert (Nl : norm_names l (start_of cwd ab) = D) by (rewrite ED, <- norm_solid, Ef, norm_solid; reflexivity).
  split; [exact ED|]. split; [|split].
  - intro X. unfold names in E. rewrite X in E. cbn in E. destruct l as [|? [|? ?]]; injection E as <-; try congruence; discriminate.
  - intros n g. rewrite Es, E, passes_walk by exact Pl. rewrite Nl. reflexivity.
  - intros n g. unfold pnames. rewrite Es, E, filter_app. change (filter (fun c => negb (str_eqb c [] || str_eqb c dot)) l) with (filter solid l). cbn [filter]. change (negb (str_eqb loc [] || str_eqb loc dot)) with (solid loc). rewrite (plain_solid loc Hl).
    rewrite passes_walk by (apply passes_solid; exact Pl). rewrite norm_solid, Nl. reflexivity.
Qed.
Lemma linking cwd sha1 tar dl ab x copy loc t : x_abifloc x = Some loc -> first_copy x = Some copy -> exists_at cwd t ab = true ->
  process_extfilelist cwd sha1 tar dl ab [naming x (Some (u "abif"))] None None t = link_file cwd (path_join dl copy) ab (path_join ab loc) t.
Proof.
  intros Hl Hc Hx. rewrite process_exists by exact Hx. cbn [process_entries naming x_srcfmt or_else]. change (or_else (Some (u "abif")) None) with (Some (u "abif")).
  assert (E : process_entry cwd sha1 tar dl ab None (naming x (Some (u "abif"))) (Some (u "abif")) t = link_file cwd (path_join dl copy) ab (path_join ab loc) t).
  { unfold process_entry. change (is_fmt (Some (u "abif")) "abif") with true. unfold abind at 1. cbn [naming x_localcopies x_localcopy x_abifloc]. unfold first_copy in Hc. destruct (x_localcopies x) as [cs|].
    - destruct cs as [|c0 cs]; [discriminate Hc|]. injection Hc as ->. unfold abind. cbn [aret]. rewrite Hl. reflexivity.
    - rewrite Hc. unfold abind. cbn [akey of_option lift aret]. rewrite Hl. reflexivity. }
  unfold abind. match goal with |- (match ?a with _ => _ end) = _ => replace a with (link_file cwd (path_join dl copy) ab (path_join ab loc) t) by (symmetry; exact E) end.
  destruct (link_file _ _ _ _ _) as [[[]|e] t']; reflexivity.
Qed.

(** An entry with format abif, whose download and whose ABIF directory are reached through real directories - by absolute or relative paths, with or without '.' and '..':
    afterwards the name leads to the download and reads like it, and nothing else has changed. *)
Theorem C59_link_dots : forall cwd sha1 tar dl ab x copy loc before c D p bytes t, good_place cwd -> well_formed t ->
  x_abifloc x = Some loc -> plain_name loc = true -> first_copy x = Some copy ->
  ab <> [] -> passes t (start_of cwd ab) (names ab) -> resolve cwd t true ab = Ok D -> at_place t D = Some NDir ->
  names (path_join dl copy) = before ++ [c] -> plain_name c = true -> passes t (start_of cwd (path_join dl copy)) before ->
  resolve cwd t false (path_join dl copy) = Ok p -> at_place t p = Some (NFile bytes) ->
  at_place t (D ++ [loc]) <> Some NDir -> p <> D ++ [loc] ->
  exists t' target, process_extfilelist cwd sha1 tar dl ab [naming x (Some (u "abif"))] None None t = (Ok tt, t') /\ t' (D ++ [loc]) = Some (NLink target) /\
    resolve cwd t' true (path_join ab loc) = Ok p /\ read_text cwd t' (path_join ab loc) = read_text cwd t (path_join dl copy) /\
    forall q, q <> D ++ [loc] -> t' q = t q.
Proof.
  intros cwd sha1 tar dl ab x copy loc before c D p bytes t Hw W Hl Hloc Hc Hne Hpass HD Hdir En Pc Hb Hp Hf Hnd Hsep.
  destruct (below cwd t true ab loc D Hne Hpass HD Hloc) as (ED&Hjn&_&_).
  assert (Ep : p = abs_names cwd (path_join dl copy) /\ p = norm_names before (start_of cwd (path_join dl copy)) ++ [c] /\ path_join dl copy <> []).
  { unfold resolve in Hp. destruct (path_join dl copy) as [|z zs] eqn:Ez; [discriminate Hp|]. rewrite <- Ez in *. rewrite En, passes_walk in Hp by exact Hb.
    rewrite (walk_last _ t false _ c Pc) in Hp by (match goal with |- match ?a with _ => _ end => destruct a as [[| |]|] end; auto). injection Hp as <-.
    split; [|split; [reflexivity|congruence]]. unfold abs_names. rewrite En, norm_app. cbn [norm_names]. apply plain_name_spec in Pc as (N1&N2&N3&_). destruct (str_eqb_spec c []); [congruence|]. destruct (str_eqb_spec c dot); [congruence|]. destruct (str_eqb_spec c dotdot); [congruence|]. reflexivity. }
  destruct Ep as (Ep&Ep2&Hpn).
  assert (R : exists target, relpath cwd (path_join dl copy) ab = Ok target).
  { unfold relpath. destruct (path_join dl copy); [congruence|]. destruct (cut_common _ _). eexists. reflexivity. }
  destruct R as (target&R).
  assert (Lead : forall t0 n, well_formed t0 -> at_place t0 D = Some NDir -> at_place t0 p = Some (NFile bytes) -> target <> [] /\ is_abs target = false /\ walk n t0 true D (names target) = Ok p).
  { intros t0 n W0 HD0 Hf0. apply (relpath_walk cwd t0 n true (path_join dl copy) ab target D p W0); auto.
    - apply good_abs_any, Hw.
    - congruence.
    - rewrite Ep2, removelast_last. rewrite Ep2 in Hf0. apply (at_wf t0 _ c W0). congruence.
    - rewrite Ep2. apply snoc_ne.
    - rewrite Hf0. exact I. }
  destruct (Lead t 0%nat W Hdir Hf) as (Tn&_&_).
  assert (Hx : exists_at cwd t ab = true) by (unfold exists_at, looks_up; rewrite HD, Hdir; reflexivity).
  assert (Dn : D <> D ++ [loc]) by (intro E; apply (f_equal (@length _)) in E; rewrite app_length in E; cbn in E; lia).
  (* where the name lies in every tree that differs there only *)
  assert (Pass : forall t0, (forall q, q <> D ++ [loc] -> t0 q = t q) -> passes t0 (start_of cwd ab) (names ab)) by (intros t0 H0; apply (passes_frame t t0 (D ++ [loc]) _ H0 Hnd), Hpass).
  assert (Res : forall t0 g, (forall q, q <> D ++ [loc] -> t0 q = t q) -> resolve cwd t0 g (path_join ab loc) = walk max_links t0 g D [loc] /\ presolve cwd t0 g (is_abs (path_join ab loc)) (pnames (path_join ab loc)) = walk max_links t0 g D [loc]).
  { intros t0 g H0. assert (HD0 : resolve cwd t0 true ab = Ok D).
    { unfold resolve. destruct ab as [|z zs]; [congruence|]. pose proof (passes_walk max_links t0 true [] _ _ (Pass t0 H0)) as E. rewrite app_nil_r in E. rewrite E, walk_nil. rewrite ED. reflexivity. }
    destruct (below cwd t0 true ab loc D Hne (Pass t0 H0) HD0 Hloc) as (_&_&B1&B2). split.
    - unfold resolve. destruct (path_join ab loc) as [|z zs] eqn:Ez; [congruence|]. rewrite <- Ez. rewrite <- Ez in B1. apply B1.
    - apply B2. }
  assert (Place : forall t0, (forall q, q <> D ++ [loc] -> t0 q = t q) -> resolve cwd t0 false (path_join ab loc) = Ok (D ++ [loc])).
  { intros t0 H0. rewrite (proj1 (Res t0 false H0)). apply walk_last; [exact Hloc|]. destruct (at_place t0 (D ++ [loc])) as [[| |]|]; auto. }
  assert (Made : exists t', link_file cwd (path_join dl copy) ab (path_join ab loc) t = (Ok tt, t') /\ t' (D ++ [loc]) = Some (NLink target) /\ forall q, q <> D ++ [loc] -> t' q = t q).
  { unfold link_file, abind, lift. rewrite R. unfold os_symlink at 1. destruct target as [|z zs]; [congruence|]. set (target := z :: zs) in *. rewrite (Place t (fun q _ => eq_refl)).
    destruct (at_place t (D ++ [loc])) as [nd|] eqn:Ea.
    - assert (Hrm : os_remove cwd (path_join ab loc) t = (Ok tt, put (D ++ [loc]) None t)) by (unfold os_remove; rewrite (Place t (fun q _ => eq_refl)), Ea; destruct nd; [congruence| |]; reflexivity). rewrite Hrm.
      exists (put (D ++ [loc]) (Some (NLink target)) (put (D ++ [loc]) None t)). split; [|split; [apply put_same|intros q Hq; rewrite put_other by exact Hq; apply (put_other _ None t), Hq]]. unfold os_symlink. unfold target at 1. rewrite (Place (put (D ++ [loc]) None t)) by (intros q Hq; apply put_other, Hq). rewrite at_put_same by apply snoc_ne. reflexivity.
    - exists (put (D ++ [loc]) (Some (NLink target)) t). split; [reflexivity|]. split; [apply put_same|intros q Hq; apply put_other, Hq]. }
  destruct Made as (t'&M1&M2&M3). exists t', target. split; [rewrite (linking cwd sha1 tar dl ab x copy loc t Hl Hc Hx); exact M1|]. split; [exact M2|].
  assert (W' : well_formed t') by (apply (wf_change t t' D loc W Hdir Hnd M3)).
  assert (HD' : at_place t' D = Some NDir) by (rewrite (at_frame t t' _ D M3 Dn); exact Hdir).
  assert (Hf' : at_place t' p = Some (NFile bytes)) by (rewrite (at_frame t t' _ p M3 Hsep); exact Hf).
  assert (Follow : walk max_links t' true D [loc] = Ok p).
  { pose proof Hloc as Hl'. apply plain_name_spec in Hl' as (N1&N2&N3&_). rewrite walk_cons. destruct (str_eqb_spec loc []); [congruence|]. destruct (str_eqb_spec loc dot); [congruence|]. cbn [orb]. destruct (str_eqb_spec loc dotdot); [congruence|].
    rewrite at_snoc, M2. cbn [negb]. change max_links with (S (pred max_links)). cbv iota beta. destruct (Lead t' (pred max_links) W' HD' Hf') as (_&T2&T3). rewrite T2, app_nil_r. exact T3. }
  split; [rewrite (proj1 (Res t' true M3)); exact Follow|]. split; [|exact M3].
  unfold read_text. rewrite (proj2 (Res t' true M3)), Follow.
  assert (Pr : presolve cwd t true (is_abs (path_join dl copy)) (pnames (path_join dl copy)) = Ok p).
  { unfold presolve. fold (start_of cwd (path_join dl copy)). unfold pnames. rewrite En, filter_app. change (filter (fun c => negb (str_eqb c [] || str_eqb c dot)) before) with (filter solid before). cbn [filter]. change (negb (str_eqb c [] || str_eqb c dot)) with (solid c). rewrite (plain_solid c Pc).
    rewrite passes_walk by (apply passes_solid; exact Hb). rewrite norm_solid, Ep2. apply walk_last; [exact Pc|]. rewrite <- Ep2, Hf. exact I. }
  rewrite Pr. unfold read_place. rewrite Hf, Hf'. reflexivity.
Qed.
Print Assumptions C59_link_dots.
(** Where there is a directory of that name, the run fails and nothing is changed. *)
Theorem C59_link_directory : forall cwd sha1 tar dl ab x copy loc D t,
  x_abifloc x = Some loc -> plain_name loc = true -> first_copy x = Some copy -> path_join dl copy <> [] ->
  good_place cwd -> ab <> [] -> passes t (start_of cwd ab) (names ab) -> resolve cwd t true ab = Ok D -> at_place t D = Some NDir -> at_place t (D ++ [loc]) = Some NDir ->
  process_extfilelist cwd sha1 tar dl ab [naming x (Some (u "abif"))] None None t = (Err OSError, t).
Proof.
  intros cwd sha1 tar dl ab x copy loc D t Hl Hloc Hc Hpn Hw Hne Hpass HD Hdir Hd. destruct (below cwd t true ab loc D Hne Hpass HD Hloc) as (_&Hjn&B1&_).
  assert (Hx : exists_at cwd t ab = true) by (unfold exists_at, looks_up; rewrite HD, Hdir; reflexivity). rewrite (linking cwd sha1 tar dl ab x copy loc t Hl Hc Hx).
  assert (P : resolve cwd t false (path_join ab loc) = Ok (D ++ [loc])).
  { unfold resolve. destruct (path_join ab loc) as [|z zs] eqn:Ez; [congruence|]. rewrite <- Ez in *. rewrite B1. apply walk_last; [exact Hloc|]. rewrite Hd. exact I. }
  assert (R : exists z zs, relpath cwd (path_join dl copy) ab = Ok (z :: zs)).
  { unfold relpath. destruct (path_join dl copy) as [|z0 z0s] eqn:Ez; [congruence|]. rewrite <- Ez in *. destruct (cut_common (abs_names cwd ab) (abs_names cwd (path_join dl copy))) as (s&r) eqn:E. apply cut_common_spec in E as (common&E1&E2).
    destruct (map (fun _ => dotdot) s ++ r) as [|y l] eqn:El; [eexists; eexists; reflexivity|]. destruct (join_slash (y :: l)) as [|z zs] eqn:Ej; [|eexists; eexists; reflexivity]. exfalso.
    assert (Hy : y <> []). { destruct s as [|s0 s]; cbn [map app] in El; [|injection El as <- _; discriminate]. subst r. pose proof (good_abs_any cwd (path_join dl copy) Hw y) as G. rewrite E2 in G. assert (Hin : In y (common ++ y :: l)) by (apply in_or_app; right; left; reflexivity). specialize (G Hin). apply plain_name_spec in G as (G&_). exact G. }
    destruct y as [|c0 y]; [congruence|]. destruct l; discriminate Ej. }
  destruct R as (z&zs&R). unfold link_file, abind, lift. rewrite R. unfold os_symlink. rewrite P, Hd. unfold os_remove. rewrite P, Hd. reflexivity.
Qed.
Print Assumptions C59_link_directory.
(** Paths with '..' on both sides, from the directory home/me/abif; and a directory in the way. *)
Example C59_dots_sample : exists t',
  process_extfilelist (home ++ [u "abif"]) no_sha no_tar (u "../dl/tests/..") (u "./sub/../../abif") [naming (entry "t2.abif" None "two.abif") (Some (u "abif"))] None None (tree_of base) = (Ok tt, t') /\
  t' (home ++ [u "abif"; u "two.abif"]) = Some (NLink (u "../dl/t2.abif")) /\ read_text (home ++ [u "abif"]) t' (u "two.abif") = Ok (u "3:B>A") /\
  passes (tree_of base) (home ++ [u "abif"]) (names (u "./sub/../../abif")) /\ passes (tree_of base) (home ++ [u "abif"]) (names (u "../dl/tests/..")) /\
  resolve (home ++ [u "abif"]) (tree_of base) true (u "./sub/../../abif") = Ok (home ++ [u "abif"]) /\
  resolve (home ++ [u "abif"]) (tree_of base) false (path_join (u "../dl/tests/..") (u "t2.abif")) = Ok (home ++ [u "dl"; u "t2.abif"]) /\
  process_extfilelist home no_sha no_tar (u "dl") (u "abif") [naming (entry "t2.abif" None "sub") (Some (u "abif"))] None None (tree_of base) = (Err OSError, tree_of base).
Proof. eexists. split; [vm_compute; reflexivity|]. repeat (split; [vm_compute; auto|]). vm_compute. reflexivity. Qed.
