(** * PropsWidj: C60, Electowidget files *)

From Coq Require Import Lia.
From Verif Require Import PyBase PyFacts Jabmod JsonText JsonParse JsonParseFacts JabmodJson ConvertModel PairwiseModel Spec PropsPairwise.
Local Open Scope Z_scope.
Local Open Scope res_scope.

(** ** As it is *)
(** Every conversion fails: the module uses ABIF_VERSION, which it neither defines nor imports. *)
Theorem C60_refuted : forall widgetjson, convert_widj_to_jabmod widgetjson = Err NameError.
Proof. reflexivity. Qed.
Print Assumptions C60_refuted.

(** ** With the name defined *)
(** A well-formed Electowidget object: candidates with display names, and ballots with a quantity and ratings. *)
Record widj := Widj { wd_other : dict json; wd_cands : dict (dict json); wd_ballots : list (json * dict json) }.
Definition display_name (info : dict json) : option json := dget (u "display_name") info.
(** The JSON object [w] has these parts. *)
Record is_widj (w : json) (d : widj) : Prop := {
  iw_fields : exists l, w = JObj l /\ NoDup (dkeys l) /\
    dget (u "candidates") l = Some (JObj (map (fun ci => (fst ci, JObj (snd ci))) (wd_cands d))) /\
    (exists bs, dget (u "inline_ballots") l = Some (JArr bs) /\
       Forall2 (fun b qv => exists bl, b = JObj bl /\ dget (u "qty") bl = Some (fst qv) /\ dget (u "vote") bl = Some (JObj (snd qv))) bs (wd_ballots d)) /\
    (forall k, ~ In k PRUNED_WIDJ_FIELDS -> dget k (wd_other d) = dget k l) /\ (forall k, In k PRUNED_WIDJ_FIELDS -> dget k (wd_other d) = None);
  iw_cands : NoDup (dkeys (wd_cands d)) /\ forall c info, In (c, info) (wd_cands d) -> display_name info <> None;
  iw_ballots : forall q v, In (q, v) (wd_ballots d) -> NoDup (dkeys v)
}.

Lemma prune_get (l : dict json) : forall k d0, NoDup (dkeys l) -> dget k (fold_left (fun d kv => if memb (fst kv) PRUNED_WIDJ_FIELDS then d else dset (fst kv) (snd kv) d) l d0)
  = if memb k PRUNED_WIDJ_FIELDS then dget k d0 else match dget k l with Some v => Some v | None => dget k d0 end.
Proof.
  induction l as [|[k' v] l IH]; intros k d0 Hn; cbn [fold_left dget]; [destruct (memb k _); reflexivity|]. cbn [fst snd]. inversion Hn as [|x xs Hx Hn']; subst. rewrite IH by exact Hn'.
  destruct (str_eqb_spec k k') as [E|E].
  - subst k'. assert (Hg : dget k l = None) by (apply dget_None; exact Hx). rewrite Hg. destruct (memb k PRUNED_WIDJ_FIELDS) eqn:Em; [reflexivity|]. rewrite dget_dset_same. reflexivity.
  - assert (Ed : dget k (if memb k' PRUNED_WIDJ_FIELDS then d0 else dset k' v d0) = dget k d0). { destruct (memb k' _); [reflexivity|]. apply dget_dset_other; exact E. }
    rewrite Ed. reflexivity.
Qed.
Lemma mapM_Forall2 {A B C} (f : A -> result C) (R : A -> B -> Prop) (g : B -> C) l l' : (forall x y, R x y -> f x = Ok (g y)) -> Forall2 R l l' -> mapM f l = Ok (map g l').
Proof. intros H F. induction F as [|x y l l' Hxy F IH]; [reflexivity|]. cbn [mapM map]. rewrite (H x y Hxy), IH. reflexivity. Qed.

(** If ABIF_VERSION were defined in the module, the conversion would keep every candidate with its display name, every
    ballot with its quantity and ratings, and all other fields but the display settings.  Missing: the code as it is
    does none of this (C60_refuted). *)
Theorem C60_if_defined : forall globals version w d, dget (u "ABIF_VERSION") globals = Some version -> is_widj w d ->
  exists md names vls, convert_widj_in globals w = Ok (JObj [(u "metadata", JObj md); (u "candidates", JObj names); (u "votelines", JArr vls)]) /\
    dkeys names = dkeys (wd_cands d) /\ (forall c info, In (c, info) (wd_cands d) -> dget c names = display_name info) /\
    vls = map (fun qv => JObj [(u "qty", fst qv); (u "prefs", JObj (map (fun cr => (fst cr, JObj [(u "rating", snd cr)])) (snd qv)))]) (wd_ballots d) /\
    forall k, dget k md = match dget k (wd_other d) with Some v => Some v | None => if str_eqb k (u "version") then Some version else None end.
Proof.
  intros globals version w d Hg [Hf (Hc1&Hc2) Hb]. destruct Hf as (l&->&Hl&Hcand&(bs&Hbs&HF)&Hm1&Hm2).
  set (nm := fun ci : str * dict json => (fst ci, match display_name (snd ci) with Some n => n | None => JNull end)).
  exists (fold_left (fun d kv => if memb (fst kv) PRUNED_WIDJ_FIELDS then d else dset (fst kv) (snd kv) d) l [(u "version", version)]). exists (map nm (wd_cands d)). eexists.
  assert (Hk : map fst (map nm (wd_cands d)) = dkeys (wd_cands d)). { rewrite map_map. unfold dkeys. apply map_ext. intros [? ?]. reflexivity. }
  assert (E1 : mapM (fun kv => let* n := jitem (snd kv) (u "display_name") in Ok (fst kv, n)) (map (fun ci => (fst ci, JObj (snd ci))) (wd_cands d)) = Ok (map nm (wd_cands d))).
  { clear Hcand Hk Hc1. induction (wd_cands d) as [|[c info] r IH]; [reflexivity|]. cbn [map mapM fst snd jitem]. unfold dgetE. unfold nm at 1, display_name at 1. cbn [fst snd]. specialize (Hc2 c info (or_introl eq_refl)) as Hi. unfold display_name in Hi.
    destruct (dget (u "display_name") info) as [n|]; [|congruence]. cbn [of_option bind]. rewrite IH; [reflexivity|]. intros c' i' H'. apply (Hc2 c' i'). right; exact H'. }
  assert (E2 : mapM widj_ballot bs = Ok (map (fun qv => JObj [(u "qty", fst qv); (u "prefs", JObj (map (fun cr => (fst cr, JObj [(u "rating", snd cr)])) (snd qv)))]) (wd_ballots d))).
  { assert (G : forall qv, In qv (wd_ballots d) -> dict_of_pairs (map (fun cr => (fst cr, JObj [(u "rating", snd cr)])) (snd qv)) = map (fun cr => (fst cr, JObj [(u "rating", snd cr)])) (snd qv)).
    { intros [q v] Hq. apply dict_of_pairs_id. cbn [snd]. rewrite map_map. cbn [fst]. apply (Hb q v Hq). }
    clear Hbs. induction HF as [|b qv bs' qvs Hqv HF IH]; [reflexivity|]. cbn [mapM map]. destruct Hqv as (bl&->&Q1&Q2).
    assert (Ew : widj_ballot (JObj bl) = Ok (JObj [(u "qty", fst qv); (u "prefs", JObj (map (fun cr => (fst cr, JObj [(u "rating", snd cr)])) (snd qv)))])).
    { unfold widj_ballot, jitem, dgetE. rewrite Q1. cbn [of_option bind]. rewrite Q2. cbn [of_option bind jitems]. exact (f_equal (fun z => Ok (JObj [(u "qty", fst qv); (u "prefs", JObj z)])) (G qv (or_introl eq_refl))). }
    rewrite Ew, IH; [reflexivity| |]; intros; [apply (Hb q v); right|apply G; right]; assumption. }
  split; [|split; [exact Hk|split; [|split; [reflexivity|]]]].
  - unfold convert_widj_in. rewrite Hg. cbn [of_option bind widj_metadata]. unfold jitem at 1. unfold dgetE. rewrite Hcand. cbn [of_option bind jitems].
    refine (eq_trans (f_equal (fun q => bind q _) E1) _). cbn [bind]. unfold map_widj_ballots, jitem, dgetE. rewrite Hbs. cbn [of_option bind jiter]. rewrite E2. cbn [bind]. assert (Ed : dict_of_pairs (map nm (wd_cands d)) = map nm (wd_cands d)) by (apply dict_of_pairs_id; refine (eq_ind_r (fun z => NoDup z) Hc1 Hk)). refine (f_equal (fun z => Ok (JObj [_; (_, JObj z); _])) Ed).
  - intros c info Hi. specialize (Hc2 c info Hi) as Hd. rewrite (dget_In_nodup c (match display_name info with Some n => n | None => JNull end)).
    + destruct (display_name info); [reflexivity|congruence].
    + unfold dkeys. rewrite Hk. exact Hc1.
    + change (In (nm (c, info)) (map nm (wd_cands d))). apply in_map, Hi.
  - intro k. rewrite (prune_get l k _ Hl). destruct (memb k PRUNED_WIDJ_FIELDS) eqn:Em.
    + apply memb_In in Em. rewrite (Hm2 k Em). cbn [dget]. reflexivity.
    + apply memb_nIn in Em. rewrite (Hm1 k Em). destruct (dget k l); [reflexivity|]. cbn [dget]. reflexivity.
Qed.
Print Assumptions C60_if_defined.

(** A file like testdata/widjexample/widjexample.widj. *)
Definition widj_sample : json := JObj
  [(u "version", JStr (u "0.1")); (u "candidates", JObj [(u "candA", JObj [(u "display_name", JStr (u "Candidate A"))]); (u "candB", JObj [(u "display_name", JStr (u "Candidate B"))])]);
   (u "description", JStr (u "Generic election")); (u "max_rating", JInt 6);
   (u "inline_ballots", JArr [JObj [(u "qty", JInt 400); (u "vote", JObj [(u "candA", JInt 6)])]; JObj [(u "qty", JInt 70); (u "vote", JObj [(u "candB", JInt 4); (u "candA", JInt 0)])]])].
Example C60_sample : is_widj widj_sample
  (Widj [(u "version", JStr (u "0.1")); (u "description", JStr (u "Generic election"))]
        [(u "candA", [(u "display_name", JStr (u "Candidate A"))]); (u "candB", [(u "display_name", JStr (u "Candidate B"))])]
        [(JInt 400, [(u "candA", JInt 6)]); (JInt 70, [(u "candB", JInt 4); (u "candA", JInt 0)])]) /\
  convert_widj_in [(u "ABIF_VERSION", JStr (u "0.1"))] widj_sample = Ok (JObj
    [(u "metadata", JObj [(u "version", JStr (u "0.1")); (u "description", JStr (u "Generic election"))]);
     (u "candidates", JObj [(u "candA", JStr (u "Candidate A")); (u "candB", JStr (u "Candidate B"))]);
     (u "votelines", JArr [JObj [(u "qty", JInt 400); (u "prefs", JObj [(u "candA", JObj [(u "rating", JInt 6)])])];
                           JObj [(u "qty", JInt 70); (u "prefs", JObj [(u "candB", JObj [(u "rating", JInt 4)]); (u "candA", JObj [(u "rating", JInt 0)])])]])]).
Proof.
  split; [|vm_compute; reflexivity].
  constructor.
  - eexists. split; [reflexivity|]. split; [cbn; nodup|]. split; [vm_compute; reflexivity|]. split; [eexists; split; [vm_compute; reflexivity|]|].
    + repeat constructor; eexists; (split; [reflexivity|split; reflexivity]).
    + split.
      * intros k Hk. cbn [wd_other]. unfold dget. destruct (str_eqb_spec k (u "version")) as [|n1]; [reflexivity|]. destruct (str_eqb_spec k (u "candidates")) as [->|n2].
        { exfalso. apply Hk. apply memb_In. vm_compute. reflexivity. }
        destruct (str_eqb_spec k (u "description")) as [|n3]; [reflexivity|]. destruct (str_eqb_spec k (u "max_rating")) as [->|n4]; [exfalso; apply Hk, memb_In; vm_compute; reflexivity|].
        destruct (str_eqb_spec k (u "inline_ballots")) as [->|n5]; [exfalso; apply Hk, memb_In; vm_compute; reflexivity|]. reflexivity.
      * intros k Hk. cbn [wd_other]. unfold dget. destruct (str_eqb_spec k (u "version")) as [->|n1]; [apply memb_In in Hk; vm_compute in Hk; discriminate Hk|]. destruct (str_eqb_spec k (u "description")) as [->|n3]; [apply memb_In in Hk; vm_compute in Hk; discriminate Hk|]. reflexivity.
  - split; [cbn; nodup|]. intros c i [H|[H|[]]]; injection H as <- <-; discriminate.
  - intros q v [H|[H|[]]]; injection H as <- <-; cbn; nodup.
Qed.
