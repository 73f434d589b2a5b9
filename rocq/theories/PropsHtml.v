(** * PropsHtml: C74, the HTML pages, and C75, the text tables *)

From Coq Require Import Lia Permutation.
From Verif Require Import PyBase PyFacts Jabmod PairwiseModel Spec PairwiseFacts PropsPairwise ScoreModel Regex ParserModel ParserFacts TextFacts DiagramModel PropsDiagram HtmlModel.
Local Open Scope Z_scope.

(** ** Specification: what a browser makes of a page *)
Inductive token := Tag (t : str) | Words (s : str).
(** Tags run from < to the next >; what is between tags is text. *)
Fixpoint scan (in_tag : bool) (acc s : str) : list token :=
  match s with
  | [] => [if in_tag then Tag acc else Words acc]
  | c :: r =>
      if in_tag then (if N.eqb c 62 then Tag acc :: scan false [] r else scan true (acc ++ [c]) r)
      else (if N.eqb c 60 then Words acc :: scan true [] r else scan false (acc ++ [c]) r)
  end.
(** The character references in a text: amp, lt and gt (nothing else is ever escaped here).  [skip] characters were
    already read as part of a reference. *)
Definition named (r : str) : option (N * nat) :=
  if str_eqb (firstn 4 r) (u "amp;") then Some (38%N, 4%nat) else if str_eqb (firstn 3 r) (u "lt;") then Some (60%N, 3%nat) else if str_eqb (firstn 3 r) (u "gt;") then Some (62%N, 3%nat) else None.
Fixpoint reading (skip : nat) (s : str) : str :=
  match s with
  | [] => []
  | c :: r =>
      match skip with
      | S k => reading k r
      | O => if N.eqb c 38 then match named r with Some (v, k) => v :: reading k r | None => c :: reading 0 r end else c :: reading 0 r
      end
  end.
Definition entities (s : str) : str := reading 0 s.
(** Blanks around a text do not show, nor do blank texts. *)
Definition trimmed (s : str) : list str := match strip s with [] => [] | w => [w] end.
Definition texts (page : str) : list str := flat_map (fun t => match t with Tag _ => [] | Words s => trimmed (entities s) end) (scan false [] page).
Definition tags (page : str) : list str := flat_map (fun t => match t with Tag t => [t] | Words _ => [] end) (scan false [] page).

(** ** Facts *)
Definition piece_texts (ps : list piece) : list str := flat_map (fun p => match p with PTag _ => [] | PText s => trimmed s end) ps.
Definition piece_tags (ps : list piece) : list str := flat_map (fun p => match p with PTag t => [t] | PText _ => [] end) ps.
Fixpoint sepb (prev : bool) (ps : list piece) : bool :=
  match ps with [] => true | PTag _ :: r => sepb false r | PText _ :: r => negb prev && sepb true r end.
Definition clean_tags (ps : list piece) : Prop := forall t, In (PTag t) ps -> ~ In 62%N t.

Lemma scan_text w : forall acc r, ~ In 60%N w -> scan false acc (w ++ r) = scan false (acc ++ w) r.
Proof.
  induction w as [|c w IH]; intros acc r H; cbn [app]; [rewrite app_nil_r; reflexivity|]. cbn [scan]. destruct (N.eqb_spec c 60) as [->|n]; [exfalso; apply H; left; reflexivity|].
  rewrite IH by (intro Hi; apply H; right; exact Hi). rewrite <- app_assoc. reflexivity.
Qed.
Lemma scan_tag t : forall acc r, ~ In 62%N t -> scan true acc (t ++ 62%N :: r) = Tag (acc ++ t) :: scan false [] r.
Proof.
  induction t as [|c t IH]; intros acc r H; cbn [app scan]; [rewrite app_nil_r; reflexivity|]. destruct (N.eqb_spec c 62) as [->|n]; [exfalso; apply H; left; reflexivity|].
  rewrite IH by (intro Hi; apply H; right; exact Hi). rewrite <- app_assoc. reflexivity.
Qed.
Lemma blank_noangle w : blank w -> ~ In 60%N w /\ ~ In 38%N w.
Proof. intro H. unfold blank in H. rewrite forallb_forall in H. split; intro Hi; specialize (H _ Hi); discriminate H. Qed.
Lemma escape_noangle x : ~ In 60%N (bs_escape x) /\ ~ In 62%N (bs_escape x).
Proof.
  split; intro H; apply in_flat_map in H as (c&_&H); unfold bs_char in H;
    (destruct (N.eqb_spec c 38); [cbn in H; intuition discriminate|]); (destruct (N.eqb_spec c 60); [cbn in H; intuition discriminate|]); (destruct (N.eqb_spec c 62); [cbn in H; intuition discriminate|]); cbn in H; intuition.
Qed.
Lemma entities_cons c r : c <> 38%N -> entities (c :: r) = c :: entities r.
Proof. intro n. unfold entities. cbn [reading]. destruct (N.eqb_spec c 38); [congruence|reflexivity]. Qed.
Lemma entities_plain w r : ~ In 38%N w -> entities (w ++ r) = w ++ entities r.
Proof.
  induction w as [|c w IH]; intro H; [reflexivity|]. cbn [app]. rewrite entities_cons by (intro E; apply H; left; exact E). f_equal. apply IH. intro Hi; apply H; right; exact Hi.
Qed.
Lemma entities_escape x r : entities (bs_escape x ++ r) = x ++ entities r.
Proof.
  induction x as [|c x IH]; [reflexivity|]. change (bs_escape (c :: x)) with (bs_char c ++ bs_escape x). unfold bs_char.
  destruct (N.eqb_spec c 38) as [->|n1]; [exact (f_equal (cons 38%N) IH)|]. destruct (N.eqb_spec c 60) as [->|n2]; [exact (f_equal (cons 60%N) IH)|]. destruct (N.eqb_spec c 62) as [->|n3]; [exact (f_equal (cons 62%N) IH)|].
  cbn [app]. rewrite entities_cons by exact n1. f_equal. exact IH.
Qed.
Lemma trimmed_pad a x b : blank a -> blank b -> trimmed (a ++ x ++ b) = trimmed x.
Proof.
  intros Ha Hb. unfold trimmed. enough (E : strip (a ++ x ++ b) = strip x) by (rewrite E; reflexivity). unfold strip. rewrite lstrip_app_blank by exact Ha.
  clear Ha. revert Hb. induction x as [|c x IH]; intro Hb; [cbn [app]; rewrite (lstrip_blank b Hb); reflexivity|]. cbn [app lstrip]. destruct (is_space c); [apply IH, Hb|]. apply (rstrip_app_blank b (c :: x)), Hb.
Qed.

(** The texts and tags found in a laid out page are those of its pieces. *)
Lemma pretty_scan ps s : pretty ps s -> forall prev, sepb prev ps = true -> clean_tags ps ->
  forall a x b, blank a -> blank b -> (prev = false -> x = []) ->
  flat_map (fun t => match t with Tag _ => [] | Words w => trimmed (entities w) end) (scan false (a ++ bs_escape x ++ b) s) = trimmed x ++ piece_texts ps /\
  flat_map (fun t => match t with Tag t => [t] | Words _ => [] end) (scan false (a ++ bs_escape x ++ b) s) = piece_tags ps.
Proof.
  assert (K : forall a x b, blank a -> blank b -> trimmed (entities (a ++ bs_escape x ++ b)) = trimmed x).
  { intros a x b Ha Hb. rewrite entities_plain by (apply blank_noangle, Ha). rewrite entities_escape. rewrite <- (app_nil_r b) at 1. rewrite entities_plain by (apply blank_noangle, Hb). cbn [entities]. rewrite app_nil_r. apply trimmed_pad; assumption. }
  assert (Bapp : forall v w, blank v -> blank w -> blank (v ++ w)) by (intros v w Hv Hw; unfold blank in *; rewrite forallb_app, Hv, Hw; reflexivity).
  induction 1 as [ws Hw|ws t ps s Hw Hp IH|ws a' x' b' ps s Hw Ha' Hb' Hp IH]; intros prev Hs Hc a x b Ha Hb Hx.
  - rewrite <- (app_nil_r ws), scan_text by (apply blank_noangle, Hw). cbn [scan flat_map]. rewrite <- !app_assoc. rewrite K by (try apply Bapp; assumption). rewrite !app_nil_r. split; reflexivity.
  - rewrite scan_text by (apply blank_noangle, Hw). cbn [app scan N.eqb Pos.eqb]. rewrite scan_tag by (apply Hc; left; reflexivity). cbn [app flat_map].
    rewrite <- !app_assoc. rewrite K by (try apply Bapp; assumption). destruct (IH false Hs) with (a := @nil N) (x := @nil N) (b := @nil N) as (I1&I2); try reflexivity; [intros t' Ht'; apply Hc; right; exact Ht'|].
    cbn [app bs_escape flat_map] in I1, I2. rewrite I1, I2. split; reflexivity.
  - cbn [sepb] in Hs. apply andb_prop in Hs as (Hn&Hs). assert (prev = false) by (destruct prev; [discriminate|reflexivity]). rewrite (Hx H). cbn [bs_escape flat_map app].
    rewrite scan_text by (apply blank_noangle, Hw). rewrite scan_text by apply escape_noangle.
    destruct (IH true Hs) with (a := (a ++ b) ++ ws) (x := x') (b := @nil N) as (I1&I2); try reflexivity.
    + intros t' Ht'; apply Hc; right; exact Ht'.
    + apply Bapp; [apply Bapp; assumption|exact Hw].
    + discriminate.
    + rewrite app_nil_r in I1, I2. rewrite I1, I2. unfold piece_texts at 2, piece_tags at 2. cbn [flat_map]. rewrite (trimmed_pad a' x' b' Ha' Hb'). split; reflexivity.
Qed.
Lemma pretty_page ps s : pretty ps s -> sepb false ps = true -> clean_tags ps -> texts s = piece_texts ps /\ tags s = piece_tags ps.
Proof. intros H Hs Hc. apply (pretty_scan ps s H false Hs Hc [] [] []); reflexivity. Qed.

Lemma sepb_tag p ps t r : sepb p (ps ++ PTag t :: r) = sepb p ps && sepb false r.
Proof. revert p. induction ps as [|[x|x] ps IH]; intro p; cbn [app sepb]; [reflexivity|apply IH|]. rewrite IH, andb_assoc. reflexivity. Qed.
(** An element in a row of others does not touch them. *)
Lemma sepb_elem p name attrs kids r : sepb p (pieces (Elem name attrs kids) ++ r) = sepb false (flat_map pieces kids) && sepb false r.
Proof. cbn [pieces app sepb]. rewrite <- app_assoc. cbn [app]. apply sepb_tag. Qed.
Lemma sepb_elems {A} (f : A -> node) l r p : (forall x, exists name attrs kids, f x = Elem name attrs kids /\ sepb false (flat_map pieces kids) = true) ->
  (l = [] -> sepb p r = true) -> sepb false r = true -> sepb p (flat_map pieces (map f l) ++ r) = true.
Proof.
  intros H. revert p. induction l as [|x l IH]; intros p Hp Hr; cbn [map flat_map app]; [apply Hp; reflexivity|]. destruct (H x) as (name&attrs&kids&E&Hk). rewrite E. rewrite <- app_assoc, sepb_elem, Hk. cbn [andb].
  apply IH; [intros _; exact Hr|exact Hr].
Qed.
Lemma piece_texts_app a b : piece_texts (a ++ b) = piece_texts a ++ piece_texts b.
Proof. apply flat_map_app. Qed.
Lemma piece_tags_app a b : piece_tags (a ++ b) = piece_tags a ++ piece_tags b.
Proof. apply flat_map_app. Qed.
Lemma texts_elem name attrs kids : piece_texts (pieces (Elem name attrs kids)) = piece_texts (flat_map pieces kids).
Proof. cbn [pieces]. change (piece_texts (PTag (u name ++ concat (map attr_text attrs)) :: flat_map pieces kids ++ [PTag (u "/" ++ u name)])) with (piece_texts (flat_map pieces kids ++ [PTag (u "/" ++ u name)])). rewrite piece_texts_app. apply app_nil_r. Qed.
Lemma texts_kids kids : piece_texts (flat_map pieces kids) = flat_map (fun k => piece_texts (pieces k)) kids.
Proof. induction kids as [|k r IH]; [reflexivity|]. cbn [flat_map]. rewrite piece_texts_app, IH. reflexivity. Qed.

(** ** The page: texts *)
Definition cell_texts (c : cell) : list str :=
  [ce_rk c ++ u ": " ++ z2s (ce_rkscore c); ce_ck c ++ u ": " ++ z2s (ce_ckscore c)] ++ (if ce_dagger c then [[8224%N]] else []).
Definition row_texts (r : hrow) : list str :=
  [hr_label r; hr_wlt r] ++ match hr_caption r with Some c => [c; [8595%N]] | None => [] end ++ flat_map cell_texts (hr_cells r) ++ [hr_losses r].
Definition trim_all (l : list str) : list str := flat_map trimmed l.
Lemma trim_all_app a b : trim_all (a ++ b) = trim_all a ++ trim_all b.
Proof. apply flat_map_app. Qed.

Lemma cell_node_texts c : piece_texts (pieces (cell_node c)) = trim_all (cell_texts c).
Proof. unfold cell_node, cell_texts, td_style, dagger. destruct (ce_dagger c); cbn [pieces flat_map app map piece_texts trim_all]; rewrite ?app_nil_r; reflexivity. Qed.
Lemma row_node_texts r : piece_texts (pieces (row_node r)) = trim_all (row_texts r).
Proof.
  unfold row_node, row_texts. rewrite texts_elem, !flat_map_app, !piece_texts_app, !trim_all_app. refine (f_equal2 _ _ (f_equal2 _ _ (f_equal2 _ _ _))).
  - cbn [flat_map pieces app piece_texts trim_all]. rewrite ?app_nil_r. reflexivity.
  - destruct (hr_caption r); [|reflexivity]. unfold td_style. cbn [flat_map pieces app piece_texts trim_all]. rewrite ?app_nil_r. reflexivity.
  - induction (hr_cells r) as [|c l IH]; [reflexivity|]. cbn [map flat_map]. rewrite piece_texts_app, trim_all_app, cell_node_texts. f_equal. exact IH.
  - cbn [flat_map pieces app piece_texts trim_all]. rewrite ?app_nil_r. reflexivity.
Qed.
Lemma rows_texts rows : piece_texts (flat_map pieces (map row_node rows)) = trim_all (flat_map row_texts rows).
Proof. induction rows as [|r l IH]; [reflexivity|]. cbn [map flat_map]. rewrite piece_texts_app, trim_all_app, row_node_texts, IH. reflexivity. Qed.

Lemma cell_node_sep c : exists name attrs kids, cell_node c = Elem name attrs kids /\ sepb false (flat_map pieces kids) = true.
Proof. unfold cell_node, td_style, dagger. do 3 eexists. split; [reflexivity|]. destruct (ce_dagger c); reflexivity. Qed.
Lemma row_node_sep r : exists name attrs kids, row_node r = Elem name attrs kids /\ sepb false (flat_map pieces kids) = true.
Proof.
  unfold row_node. do 3 eexists. split; [reflexivity|]. rewrite !flat_map_app. assert (G : forall p, sepb p (flat_map pieces (map cell_node (hr_cells r)) ++ flat_map pieces [Elem "td" [] [Text (hr_losses r)]]) = true).
  { intro p. apply sepb_elems; [intro c; apply cell_node_sep|intros _; reflexivity|reflexivity]. }
  destruct (hr_caption r); unfold td_style; cbn [flat_map pieces app sepb negb andb]; apply G.
Qed.
Lemma results_sep t p r : sepb false r = true -> sepb p (pieces (results_div None t) ++ r) = true.
Proof.
  intro Hr. unfold results_div. rewrite sepb_elem, Hr, andb_true_r. rewrite !flat_map_app. change (flat_map pieces []) with (@nil piece). rewrite app_nil_l.
  set (tb := Elem "table" [("border"%string, u "1")] (map row_node (fst t))). cbn [flat_map]. rewrite app_nil_r. rewrite sepb_elem. apply andb_true_intro. split.
  - cbn [flat_map]. unfold tb. rewrite sepb_elem. apply andb_true_intro. split; [|reflexivity]. rewrite <- (app_nil_r (flat_map _ _)). apply sepb_elems; [intro x; apply row_node_sep|reflexivity|reflexivity].
  - destruct (snd t); reflexivity.
Qed.

(** ** The page: tags *)
Definition quoted (s : string) : str := [34%N] ++ u s ++ [34%N].
Definition styled (name style : string) : str := u name ++ u " style=" ++ quoted style.
Definition fixed_tags : list str :=
  map u ["html"; "/html"; "head"; "/head"; "title"; "/title"; "body"; "/body"; "h1"; "/h1"; "p"; "/p"; "div"; "/div"; "table"; "/table"; "tr"; "/tr"; "th"; "/th"; "td"; "/td"; "sup"; "/sup"]%string ++
  [u "div class=" ++ quoted "hscroll"; u "table border=" ++ quoted "1"; styled "td" "text-align: center;"; styled "td" "justify-content: center;";
   styled "div" "float: center;"; styled "div" "text-align: right;"; styled "div" "white-space: nowrap;"].
(** A tag the program itself wrote: one of these, or the cell with the record, whose width is a number. *)
Definition own_tag (t : str) : Prop := In t fixed_tags \/ exists n, t = u "td colspan=" ++ [34%N] ++ z2s n ++ [34%N] ++ u " style=" ++ quoted "padding-right: 3em;".
Lemma fixed_own t : memb t fixed_tags = true -> own_tag t.
Proof. intro H. left. apply memb_In, H. Qed.
Definition all_own (ps : list piece) : Prop := forall t, In (PTag t) ps -> own_tag t.
Lemma all_own_app a b : all_own a -> all_own b -> all_own (a ++ b).
Proof. intros Ha Hb t H. apply in_app_or in H as [H|H]; auto. Qed.
Lemma all_own_elem name attrs kids : own_tag (u name ++ concat (map attr_text attrs)) -> own_tag (u "/" ++ u name) -> all_own (flat_map pieces kids) -> all_own (pieces (Elem name attrs kids)).
Proof.
  intros H1 H2 Hk t H. cbn [pieces] in H. destruct H as [H|H]; [injection H as <-; exact H1|]. apply in_app_or in H as [H|[H|[]]]; [apply Hk, H|injection H as <-; exact H2].
Qed.
Lemma all_own_text s : all_own (flat_map pieces [Text s]).
Proof. intros t [H|[]]. discriminate H. Qed.
Lemma all_own_nil : all_own []. Proof. intros t []. Qed.
Lemma all_own_cons k kids : all_own (pieces k) -> all_own (flat_map pieces kids) -> all_own (flat_map pieces (k :: kids)).
Proof. intros. apply all_own_app; assumption. Qed.
Ltac own := repeat match goal with |- all_own _ => first
  [ apply all_own_text | apply all_own_nil
  | apply all_own_elem; [first [apply fixed_own; vm_compute; reflexivity | idtac]|apply fixed_own; vm_compute; reflexivity|]
  | apply all_own_cons ] end.
Lemma text_own s : all_own (pieces (Text s)). Proof. intros t [H|[]]. discriminate H. Qed.
Lemma cell_own c : all_own (pieces (cell_node c)).
Proof. unfold cell_node, td_style, dagger. destruct (ce_dagger c); own; apply text_own. Qed.
Lemma row_own r : all_own (pieces (row_node r)).
Proof.
  unfold row_node. apply all_own_elem; [apply fixed_own; vm_compute; reflexivity|apply fixed_own; vm_compute; reflexivity|]. rewrite !flat_map_app. apply all_own_app; [|apply all_own_app; [|apply all_own_app]].
  - own. right. exists (hr_colspan r). cbn [map concat]. unfold attr_text, quoted. cbn [fst snd]. rewrite app_nil_r, <- !app_assoc. reflexivity.
  - destruct (hr_caption r); unfold td_style; own.
  - induction (hr_cells r) as [|c l IH]; [apply all_own_nil|]. cbn [map]. apply all_own_cons; [apply cell_own|exact IH].
  - own.
Qed.
Ltac el := apply all_own_elem; [apply fixed_own; vm_compute; reflexivity|apply fixed_own; vm_compute; reflexivity|].
Lemma results_own t : all_own (pieces (results_div None t)).
Proof.
  unfold results_div. el. rewrite !flat_map_app. apply all_own_app; [apply all_own_nil|]. apply all_own_app.
  - apply all_own_cons; [|apply all_own_nil]. el. apply all_own_cons; [|apply all_own_nil]. el. induction (fst t) as [|r l IH]; [apply all_own_nil|]. cbn [map]. apply all_own_cons; [apply row_own|exact IH].
  - unfold dagger. destruct (snd t); [|apply all_own_nil]. apply all_own_cons; [el; apply all_own_text|apply all_own_text].
Qed.
Lemma page_own m snippet t : all_own (flat_map pieces (html_page m snippet None t)).
Proof.
  unfold html_page. destruct snippet.
  - apply all_own_cons; [el; apply all_own_text|]. apply all_own_cons; [apply results_own|apply all_own_nil].
  - apply all_own_cons; [|apply all_own_nil]. el. apply all_own_cons; [el; apply all_own_cons; [el; apply all_own_text|apply all_own_nil]|]. apply all_own_cons; [|apply all_own_nil]. el.
    apply all_own_cons; [el; apply all_own_text|]. apply all_own_cons; [el; apply all_own_text|]. apply all_own_cons; [apply results_own|apply all_own_nil].
Qed.
Lemma own_noangle t : own_tag t -> ~ In 62%N t.
Proof.
  intros [H|(n&->)] Hi.
  - revert Hi. assert (G : forallb (fun t => negb (existsb (N.eqb 62) t)) fixed_tags = true) by (vm_compute; reflexivity). rewrite forallb_forall in G. specialize (G t H). intro Hi.
    assert (existsb (N.eqb 62) t = true) by (apply existsb_exists; exists 62%N; split; [exact Hi|reflexivity]). rewrite H0 in G. discriminate G.
  - rewrite !in_app_iff in Hi. pose proof (z2s_chars n) as Z. rewrite forallb_forall in Z. destruct Hi as [Hi|[Hi|[Hi|[Hi|[Hi|Hi]]]]]; try (cbn in Hi; intuition discriminate). specialize (Z _ Hi). discriminate Z.
Qed.
Lemma page_sep m snippet t : sepb false (flat_map pieces (html_page m snippet None t)) = true.
Proof.
  unfold html_page. assert (R : forall p r, sepb false r = true -> sepb p (pieces (results_div None t) ++ r) = true) by (intros; apply results_sep; assumption). set (d := results_div None t) in *. clearbody d.
  destruct snippet; cbn [flat_map].
  - rewrite sepb_elem. cbn [flat_map pieces app sepb negb andb]. apply R. reflexivity.
  - rewrite sepb_elem. apply andb_true_intro. split; [|reflexivity]. cbn [flat_map]. rewrite sepb_elem. apply andb_true_intro. split; [reflexivity|]. rewrite sepb_elem. apply andb_true_intro. split; [|reflexivity].
    cbn [flat_map]. rewrite sepb_elem. apply andb_true_intro. split; [reflexivity|]. rewrite sepb_elem. apply andb_true_intro. split; [reflexivity|]. apply R. reflexivity.
Qed.
(** The note under a table with ties or cycles, after a dagger. *)
Definition closing_note : str := u """Victories"" and ""losses"" sometimes aren't displayed in the expected location when there are ties and/or cycles in the results, but the numbers provided should be accurate.".
Definition closing_texts (flag : bool) : list str := if flag then [[8224%N]; closing_note] else [].
Lemma results_texts t : piece_texts (pieces (results_div None t)) = trim_all (flat_map row_texts (fst t) ++ closing_texts (snd t)).
Proof.
  unfold results_div. rewrite texts_elem, !flat_map_app, !piece_texts_app. cbn [flat_map]. rewrite app_nil_r, texts_elem. cbn [flat_map]. rewrite app_nil_r, texts_elem, rows_texts, trim_all_app.
  cbn [piece_texts flat_map app]. f_equal. destruct (snd t); reflexivity.
Qed.
Lemma page_texts m snippet t : piece_texts (flat_map pieces (html_page m snippet None t)) =
  trim_all ((if snippet then [] else [get_title_for_html m; get_title_for_html m]) ++ [json_fstr (get_abif_desc m)] ++ flat_map row_texts (fst t) ++ closing_texts (snd t)).
Proof.
  unfold html_page. rewrite trim_all_app, (trim_all_app [json_fstr _]), <- results_texts. set (d := results_div None t). clearbody d. destruct snippet; cbn [flat_map].
  - rewrite !piece_texts_app, texts_elem. cbn [flat_map app]. rewrite piece_texts_app. cbn [pieces piece_texts flat_map app trim_all]. rewrite !app_nil_r. reflexivity.
  - rewrite app_nil_r, texts_elem. cbn [flat_map]. rewrite !piece_texts_app, !texts_elem. cbn [flat_map]. rewrite !piece_texts_app, !texts_elem. cbn [pieces piece_texts flat_map app trim_all]. rewrite !app_nil_r, <- !app_assoc. reflexivity.
Qed.

(** ** C74: what the page shows *)
(** [text] appears on [page]: what a browser shows between two tags, apart from blanks around it. *)
Definition shown (text page : str) : Prop := incl (trimmed text) (texts page).
Lemma shown_in text l page : texts page = trim_all l -> In text l -> shown text page.
Proof. intros E H w Hw. rewrite E. apply in_flat_map. exists text. auto. Qed.

Theorem C74_page : forall m, tallyable m -> exists rows flag, html_table m = Ok (rows, flag) /\
  forall snippet page, pretty (flat_map pieces (html_page m snippet None (rows, flag))) page ->
    texts page = trim_all ((if snippet then [] else [get_title_for_html m; get_title_for_html m]) ++ [json_fstr (get_abif_desc m)] ++
      flat_map row_texts rows ++ (if flag then [[8224%N]; closing_note] else [])) /\
    (forall t, In t (tags page) -> own_tag t).
Proof.
  intros m H. destruct (C57_rows m H) as (rows&flag&_&E&_). exists rows, flag. split; [exact E|]. intros snippet page Hp.
  destruct (pretty_page _ _ Hp (page_sep m snippet (rows, flag))) as (T1&T2); [intros t Ht; apply own_noangle, (page_own m snippet (rows, flag)), Ht|]. split; [rewrite T1; apply page_texts|].
  intros t Ht. rewrite T2 in Ht. unfold piece_tags in Ht. apply in_flat_map in Ht as ([x|x]&Hx&Ht); [|destruct Ht]. destruct Ht as [<-|[]]. exact (page_own m snippet (rows, flag) x Hx).
Qed.
Print Assumptions C74_page.

(** Both votes of every contest, the name and record of every candidate appear. *)
Theorem C74_results_shown : forall m rows flag snippet page, tallyable m -> html_table m = Ok (rows, flag) ->
  pretty (flat_map pieces (html_page m snippet None (rows, flag))) page ->
  (forall a b, In a (cands m) -> In b (cands m) -> a <> b -> shown (a ++ u ": " ++ z2s (votes_over m a b)) page) /\
  (forall c, In c (cands m) -> shown (u "(" ++ wlt_text (record m c) ++ u ")") page) /\
  (forall c name, dget c (j_candidates m) = Some name -> In c (cands m) -> shown (if str_eqb c name then c else name ++ u " [" ++ [34%N] ++ c ++ [34%N] ++ u "]") page).
Proof.
  intros m rows flag snippet page H E Hp. destruct (C74_page m H) as (rows'&flag'&E'&G). rewrite E in E'. apply ok_inj in E'. injection E' as <- <-. destruct (G snippet page Hp) as (T&_). clear G.
  assert (S : forall x, In x (flat_map row_texts rows) -> shown x page).
  { intros x Hx. apply (shown_in _ _ _ T). apply in_or_app. right. apply in_or_app. right. apply in_or_app. left. exact Hx. }
  split.
  - intros a b Ha Hb Nab. destruct (C57_contests m rows flag H E) as (K1&K2). specialize (K2 a b Ha Hb Nab).
    destruct (filter _ _) as [|c l] eqn:Ef in K2; [discriminate K2|]. assert (Hc : In c (c :: l)) by (left; reflexivity). rewrite <- Ef in Hc. apply filter_In in Hc as (Hc&Hd). destruct (K1 c Hc) as (_&_&_&V1&V2&_).
    apply in_concat in Hc as (cs&Hcs&Hc). apply in_map_iff in Hcs as (row&<-&Hrow). apply S. apply in_flat_map. exists row. split; [exact Hrow|]. unfold row_texts.
    apply in_or_app. right. apply in_or_app. right. apply in_or_app. left. apply in_flat_map. exists c. split; [exact Hc|]. unfold cell_texts. apply in_or_app. left.
    apply orb_prop in Hd as [Hd|Hd]; apply andb_prop in Hd as (D1&D2); apply str_eqb_eq in D1, D2; subst a b; [left; rewrite V1|right; left; rewrite V2]; reflexivity.
  - destruct (C57_rows m H) as (rows'&flag'&order&E'&(P&_)&Hl&Hr). rewrite E in E'. apply ok_inj in E'. injection E' as <- <-.
    assert (W : forall c, In c (cands m) -> exists i row, nth_error order i = Some c /\ nth_error rows i = Some row).
    { intros c Hc. apply (Permutation_in _ (Permutation_sym P)) in Hc. destruct (In_nth_error _ _ Hc) as (i&Ei). exists i. destruct (nth_error rows i) as [row|] eqn:Er; [exists row; auto|].
      apply nth_error_None in Er. assert (i < length order)%nat by (apply nth_error_Some; congruence). lia. }
    split.
    + intros c Hc. destruct (W c Hc) as (i&row&E1&E2). destruct (Hr i c row E1 E2) as (_&R&_). apply S. apply in_flat_map. exists row. split; [apply (nth_error_In _ _ E2)|]. unfold row_texts. right. left. rewrite R. unfold wlt_text. rewrite <- !app_assoc. reflexivity.
    + intros c name En Hc. destruct (W c Hc) as (i&row&E1&E2). destruct (Hr i c row E1 E2) as ((name'&R1&R2)&_). rewrite En in R1. apply some_inj in R1. subst name'. apply S. apply in_flat_map. exists row. split; [apply (nth_error_In _ _ E2)|].
      unfold row_texts. left. rewrite R2. destruct (str_eqb c name) eqn:Ec; [apply str_eqb_eq in Ec; congruence|reflexivity].
Qed.
Print Assumptions C74_results_shown.

(** A value that counts as given: neither null, false, 0, an empty string, an empty list nor an empty object. *)
Definition says_something (j : json) : Prop := ~ In j [JNull; JBool false; JInt 0; JStr []; JArr []; JObj []].
Lemma json_truthy_spec j : json_truthy j = true <-> says_something j.
Proof.
  unfold says_something. split.
  - intros H X. cbn [In] in X. repeat (destruct X as [X|X]; [subst j; discriminate H|]). exact X.
  - intro H. destruct j as [|[]|z|[|c s]|[|x l]|[|x l]]; try reflexivity; try (exfalso; apply H; cbn [In]; tauto). cbn [json_truthy]. destruct (Z.eqb_spec z 0) as [->|]; [|reflexivity]. exfalso. apply H. cbn [In]. tauto.
Qed.
Lemma heading_eq : forall m,
  get_title_for_html m = u "abiflib/html_output.py Results: " ++
    json_fstr (match dget (u "title") (j_metadata m) with
               | Some t => if json_truthy t then t else match dget (u "filename") (j_metadata m) with Some f => f | None => JStr (u "(.metadata.title and .metadata.filename missing)") end
               | None => match dget (u "filename") (j_metadata m) with Some f => f | None => JStr (u "(.metadata.title and .metadata.filename missing)") end
               end) /\
  json_fstr (get_abif_desc m) = match dget (u "description") (j_metadata m) with
                                | Some d => json_fstr d
                                | None => u "Candidate matchups for " ++ join (u ", ") (dvals (j_candidates m))
                                end.
Proof.
  intro m. unfold get_title_for_html, get_abif_title, get_abif_desc, or_default, defdesc. destruct (j_metadata m) as [|kv md] eqn:E; [split; reflexivity|]. split.
  - f_equal. f_equal. destruct (dget (u "title") (kv :: md)); reflexivity.
  - destruct (dget (u "description") (kv :: md)); reflexivity.
Qed.
(** The heading: the title, else the file name, else a fixed text; the description, else the list of names. *)
Theorem C74_heading : forall m,
  (forall t, dget (u "title") (j_metadata m) = Some t -> says_something t -> get_title_for_html m = u "abiflib/html_output.py Results: " ++ json_fstr t) /\
  ((forall t, dget (u "title") (j_metadata m) = Some t -> ~ says_something t) ->
     (forall f, dget (u "filename") (j_metadata m) = Some f -> get_title_for_html m = u "abiflib/html_output.py Results: " ++ json_fstr f) /\
     (dget (u "filename") (j_metadata m) = None -> get_title_for_html m = u "abiflib/html_output.py Results: (.metadata.title and .metadata.filename missing)")) /\
  (forall d, dget (u "description") (j_metadata m) = Some d -> json_fstr (get_abif_desc m) = json_fstr d) /\
  (dget (u "description") (j_metadata m) = None -> json_fstr (get_abif_desc m) = u "Candidate matchups for " ++ join (u ", ") (dvals (j_candidates m))).
Proof.
  intro m. destruct (heading_eq m) as (E1&E2). rewrite E1, E2. split; [|split; [|split]].
  - intros t -> H. apply json_truthy_spec in H. rewrite H. reflexivity.
  - intro H. assert (G : forall x, match dget (u "title") (j_metadata m) with Some t => if json_truthy t then t else x | None => x end = x).
    { intro x. destruct (dget (u "title") (j_metadata m)) as [t|]; [|reflexivity]. destruct (json_truthy t) eqn:Et; [|reflexivity]. destruct (H t eq_refl). apply json_truthy_spec, Et. }
    rewrite G. split; [intros f ->|intros ->]; reflexivity.
  - intros d ->. reflexivity.
  - intros ->. reflexivity.
Qed.
Print Assumptions C74_heading.

(** html_score_and_star: one pre element; what it shows is the report as HTML source, followed by the two results. *)
Definition special (c : N) : bool := existsb (N.eqb c) [38; 60; 62; 34; 39]%N.
Lemma soup_pretty ps : pretty ps (concat (map piece_str ps)).
Proof.
  induction ps as [|[t|x] ps IH]; cbn [map concat piece_str]; [exact (pretty_end [] eq_refl)| |].
  - rewrite <- !app_assoc. exact (pretty_tag [] t ps _ eq_refl IH).
  - pose proof (pretty_text [] [] x [] ps _ eq_refl eq_refl eq_refl IH) as P. rewrite app_nil_r in P. exact P.
Qed.
Lemma html_char_id c : html_char c = [c] <-> special c = false.
Proof.
  unfold html_char, special. cbn [existsb]. destruct (N.eqb c 38); [split; discriminate|]. destruct (N.eqb c 60); [split; discriminate|]. destruct (N.eqb c 62); [split; discriminate|].
  destruct (N.eqb c 34); [split; discriminate|]. destruct (N.eqb c 39); [split; discriminate|]. split; reflexivity.
Qed.
Lemma html_char_long c : special c = true -> (1 < length (html_char c))%nat.
Proof.
  unfold html_char, special. cbn [existsb]. destruct (N.eqb c 38); [cbn; lia|]. destruct (N.eqb c 60); [cbn; lia|]. destruct (N.eqb c 62); [cbn; lia|]. destruct (N.eqb c 34); [cbn; lia|]. destruct (N.eqb c 39); [cbn; lia|]. discriminate.
Qed.
Lemma html_chars_long s : (length s <= length (concat (map html_char s)))%nat /\ (existsb special s = true -> (length s < length (concat (map html_char s)))%nat).
Proof.
  induction s as [|c s (I1&I2)]; [split; [cbn; lia|discriminate]|]. cbn [map concat length existsb]. rewrite app_length. assert (1 <= length (html_char c))%nat.
  { destruct (special c) eqn:E; [apply html_char_long in E; lia|]. apply html_char_id in E. rewrite E. cbn. lia. }
  split; [lia|]. intro Hs. apply orb_prop in Hs as [Hs|Hs]; [apply html_char_long in Hs; lia|specialize (I2 Hs); lia].
Qed.
Theorem C74_star_page : forall report star_json scaled_json,
  tags (html_score_and_star report star_json scaled_json) = [u "pre"; u "/pre"] /\
  texts (html_score_and_star report star_json scaled_json) = trimmed (concat (map html_char report) ++ star_json ++ scaled_json) /\
  (concat (map html_char report) = report <-> forall c, In c report -> ~ In c (u "&<>'" ++ [34%N])).
Proof.
  intros r j k. split; [|split].
  - destruct (pretty_page _ _ (soup_pretty (flat_map pieces [Elem "pre" [] [Text (score_and_star_text r j k)]])) eq_refl) as (_&T); [intros t [Ht|[Ht|[Ht|[]]]]; try discriminate Ht; injection Ht as <-; cbn; intuition discriminate|exact T].
  - destruct (pretty_page _ _ (soup_pretty (flat_map pieces [Elem "pre" [] [Text (score_and_star_text r j k)]])) eq_refl) as (T&_); [intros t [Ht|[Ht|[Ht|[]]]]; try discriminate Ht; injection Ht as <-; cbn; intuition discriminate|].
    refine (eq_trans T _). cbn [flat_map pieces app piece_texts]. rewrite app_nil_r. reflexivity.
  - split.
    + intros E c Hc Hi. pose proof (proj2 (html_chars_long r)) as L. rewrite E in L. assert (existsb special r = true); [|specialize (L H); lia]. apply existsb_exists. exists c. split; [exact Hc|].
      apply existsb_exists. exists c. split; [|apply N.eqb_refl]. cbn in Hi. cbn. intuition.
    + induction r as [|c r IH]; [reflexivity|]. intro H. cbn [map concat]. rewrite IH by (intros x Hx; apply H; right; exact Hx). assert (E : special c = false).
      { destruct (special c) eqn:E; [|reflexivity]. exfalso. apply (H c (or_introl eq_refl)). unfold special in E. apply existsb_exists in E as (x&Hx&Ex). apply N.eqb_eq in Ex. subst x. cbn in Hx. cbn. intuition. }
      apply html_char_id in E. rewrite E. reflexivity.
Qed.
Print Assumptions C74_star_page.
(** The report is escaped twice: a name with an ampersand is not shown as it is. *)
Theorem C74_star_page_refuted : texts (html_score_and_star (u "Tom & Jerry (3 stars)") [] []) = [u "Tom &amp; Jerry (3 stars)"].
Proof. vm_compute. reflexivity. Qed.
Print Assumptions C74_star_page_refuted.

Definition lt_names : jabmod := Jabmod [(u "title", JStr (u "Q&A"))] [(u "<b>", u "O'Neil & Sons"); (u "B", u "B")] [vl 3 [(u "<b>", ranked 1); (u "B", ranked 2)]; vl 2 [(u "B", ranked 1)]].
Example C74_demo : exists rows flag, html_table lt_names = Ok (rows, flag) /\
  let page := soup_str (html_page lt_names true None (rows, flag)) in
  pretty (flat_map pieces (html_page lt_names true None (rows, flag))) page /\
  texts page = [u "Candidate matchups for O'Neil & Sons, B"; u "O'Neil & Sons [""<b>""]"; u "(1-0-0)"; u "<b> victories"; [8595%N]; u "<b> is undefeated"; u "B"; u "(0-1-0)"; u "<b>: 3"; u "B: 2"; [8592%N] ++ u " B losses"].
Proof. eexists. eexists. split; [vm_compute; reflexivity|]. split; [apply soup_pretty|vm_compute; reflexivity]. Qed.
Example C74_page_nonvacuous : tallyable lt_names.
Proof. split; [nodup|intros l Hl; simpl in Hl; intuition (subst; reflexivity)]. Qed.

(** ** C75: the text tables *)
Definition count_bars (s : str) : nat := count_occ N.eq_dec s 124%N.
(** What becomes of character k, which is c, of line i, which is ln *)
Definition retouched (i : nat) (ln : str) (k : nat) (c : N) : N :=
  if Nat.eqb i 3 && N.eqb c 45 then 61%N
  else if N.eqb c 124 && (2 <=? count_bars ln)%nat && (count_bars (firstn k ln) <? 2)%nat then 43%N
  else c.

Lemma subn_bar_count n s : snd (subn_bar n s) = Nat.min n (count_bars s).
Proof.
  revert n. induction s as [|c s IH]; intro n; [cbn; lia|]. destruct n as [|n]; [reflexivity|]. cbn [subn_bar]. unfold count_bars. cbn [count_occ]. destruct (N.eqb_spec c 124) as [->|ne].
  - specialize (IH n). destruct (subn_bar n s) as (t&j). cbn [snd] in *. destruct (N.eq_dec 124 124); [|congruence]. unfold count_bars in IH. rewrite IH. reflexivity.
  - specialize (IH (S n)). destruct (subn_bar (S n) s) as (t&j). cbn [snd] in *. destruct (N.eq_dec c 124); [congruence|]. exact IH.
Qed.
Lemma subn_bar_nth n s k : nth_error (fst (subn_bar n s)) k = match nth_error s k with Some c => Some (if N.eqb c 124 && (count_bars (firstn k s) <? n)%nat then 43%N else c) | None => None end.
Proof.
  revert n k. induction s as [|c s IH]; intros n k; [destruct k; reflexivity|]. destruct n as [|n].
  - cbn [subn_bar fst]. destruct (nth_error (c :: s) k); [|reflexivity]. rewrite andb_false_r. reflexivity.
  - cbn [subn_bar]. destruct (N.eqb_spec c 124) as [->|ne].
    + specialize (IH n). destruct (subn_bar n s) as (t&j). cbn [fst] in *. destruct k as [|k]; [reflexivity|]. cbn [nth_error firstn]. rewrite IH. destruct (nth_error s k) as [d|]; [|reflexivity].
      unfold count_bars. cbn [count_occ]. destruct (N.eq_dec 124 124); [|congruence]. reflexivity.
    + specialize (IH (S n)). destruct (subn_bar (S n) s) as (t&j). cbn [fst] in *. destruct k as [|k]; [cbn [nth_error firstn]; destruct (N.eqb_spec c 124); [congruence|reflexivity]|]. cbn [nth_error firstn]. rewrite IH.
      destruct (nth_error s k) as [d|]; [|reflexivity]. unfold count_bars. cbn [count_occ]. destruct (N.eq_dec c 124); [congruence|]. reflexivity.
Qed.
Lemma bars_nth s k : nth_error (bars s) k = match nth_error s k with Some c => Some (if N.eqb c 124 && (2 <=? count_bars s)%nat && (count_bars (firstn k s) <? 2)%nat then 43%N else c) | None => None end.
Proof.
  unfold bars. pose proof (subn_bar_count 2 s) as C. pose proof (subn_bar_nth 2 s k) as Nt. destruct (subn_bar 2 s) as (t&j). cbn [fst snd] in *. subst j.
  destruct (Nat.leb_spec 2 (count_bars s)); destruct (Nat.ltb_spec 1 (Nat.min 2 (count_bars s))); try lia.
  - rewrite Nt. destruct (nth_error s k); [|reflexivity]. rewrite andb_true_r. reflexivity.
  - destruct (nth_error s k); [|reflexivity]. rewrite andb_false_r. reflexivity.
Qed.
Lemma set_nth_nth {X} (x : X) l n i : (n < length l)%nat -> nth_error (set_nth n x l) i = if Nat.eqb i n then Some x else nth_error l i.
Proof.
  revert n i. induction l as [|y l IH]; intros n i H; [cbn in H; lia|]. destruct n as [|n]; destruct i as [|i]; try reflexivity. cbn [set_nth nth_error Nat.eqb]. apply IH. cbn in H. lia.
Qed.
Lemma set_nth_length {X} (x : X) l n : length (set_nth n x l) = length l.
Proof. revert n. induction l as [|y l IH]; intros [|n]; cbn [set_nth length]; congruence. Qed.
Lemma equalsigns_bars s : count_bars (equalsigns s) = count_bars s.
Proof.
  induction s as [|c s IH]; [reflexivity|]. unfold count_bars, equalsigns in *. cbn [map count_occ]. destruct (N.eqb_spec c 45) as [->|n]; [|rewrite IH; reflexivity].
  destruct (N.eq_dec 61 124); [discriminate|]. destruct (N.eq_dec 45 124); [discriminate|]. exact IH.
Qed.

(** Nothing is changed in a drawn table but: the dashes of its fourth line, which become equals signs, and the first two
    bars of a line that has at least two, which become plus signs.  A table of less than four lines is an IndexError. *)
Theorem C75_table : forall drawn, let lines := splitlines drawn in
  ((length lines < 4)%nat -> table_text drawn = Err IndexError) /\
  ((4 <= length lines)%nat -> exists lines', table_text drawn = Ok (join [10%N] lines' ++ [10%N; 10%N]) /\ length lines' = length lines /\
     forall i ln ln', nth_error lines i = Some ln -> nth_error lines' i = Some ln' -> forall k,
       nth_error ln' k = match nth_error ln k with Some c => Some (retouched i ln k c) | None => None end).
Proof.
  intros drawn lines. unfold table_text. fold lines. split; intro L.
  - rewrite (proj2 (nth_error_None lines 3)) by lia. reflexivity.
  - destruct (nth_error lines 3) as [hb|] eqn:E3; [|apply nth_error_None in E3; lia]. cbn [of_option bind]. eexists. split; [reflexivity|]. split; [rewrite map_length; apply set_nth_length|].
    intros i ln ln' E1 E2 k. rewrite nth_error_map in E2. rewrite set_nth_nth in E2 by lia. unfold retouched. destruct (Nat.eqb_spec i 3) as [->|n3].
    + rewrite E3 in E1. apply some_inj in E1. subst hb. cbn [option_map] in E2. apply some_inj in E2. subst ln'. rewrite bars_nth. unfold equalsigns at 1. rewrite nth_error_map. destruct (nth_error ln k) as [c|] eqn:Ek; [|reflexivity]. cbn [option_map andb].
      rewrite equalsigns_bars. assert (F : firstn k (equalsigns ln) = equalsigns (firstn k ln)) by apply firstn_map. rewrite F, equalsigns_bars. f_equal. destruct (N.eqb_spec c 45) as [->|]; reflexivity.
    + rewrite E1 in E2. cbn [option_map] in E2. apply some_inj in E2. subst ln'. rewrite bars_nth. reflexivity.
Qed.
Print Assumptions C75_table.
Definition drawn_table : str := join [10%N] [u "+-----+---+"; u "|     | A |"; u "| v   | b |"; u "+-----+---+"; u "| A-Z | 3 |"; u "+-----+---+"].
Example C75_demo : table_text drawn_table = Ok (join [10%N] [u "+-----+---+"; u "+     + A |"; u "+ v   + b |"; u "+=====+===+"; u "+ A-Z + 3 |"; u "+-----+---+"] ++ [10%N; 10%N]).
Proof. vm_compute. reflexivity. Qed.
(** So the claim that only the lines of the table are redrawn is false: a token with a bar is changed, and so are the
    dashes of a heading that needs more than two lines. *)
Theorem C75_tokens_refuted :
  table_text (join [10%N] [u "+-----+---+"; u "|     | A |"; u "| v   | b |"; u "+-----+---+"; u "| A|Z | 3 |"; u "+-----+---+"]) =
    Ok (join [10%N] [u "+-----+---+"; u "+     + A |"; u "+ v   + b |"; u "+=====+===+"; u "+ A+Z | 3 |"; u "+-----+---+"] ++ [10%N; 10%N]) /\
  table_text (join [10%N] [u "+---+-----+"; u "| L | Ann |"; u "| v | and |"; u "|   | A-Z |"; u "+---+-----+"; u "| A | 3   |"; u "+---+-----+"]) =
    Ok (join [10%N] [u "+---+-----+"; u "+ L + Ann |"; u "+ v + and |"; u "+   + A=Z |"; u "+---+-----+"; u "+ A + 3   |"; u "+---+-----+"] ++ [10%N; 10%N]).
Proof. split; vm_compute; reflexivity. Qed.
Print Assumptions C75_tokens_refuted.
