(** * HtmlModel: abiflib/html_output_common.py, the page of html_output_pairwise.py, html_output_scorestar.py,
    and the text tables of textoutput.py *)

From Verif Require Import PyBase Jabmod PairwiseModel ScoreModel DiagramModel Regex ParserModel.
Local Open Scope Z_scope.
Local Open Scope res_scope.

(** ** What BeautifulSoup is given *)
(** A tag with its attributes, sorted by name as BeautifulSoup writes them, and its contents; or a string. (html_output_pairwise.py:58-211) *)
Inductive node := Text (s : str) | Elem (name : string) (attrs : list (string * str)) (kids : list node).

(** What is written for a node before any layout: tags without their angle brackets, and strings. (html_output_pairwise.py:213) *)
Inductive piece := PTag (s : str) | PText (s : str).
(** BeautifulSoup: an attribute of a tag (used by html_output_pairwise.py:58-213). *)
Definition attr_text (kv : string * str) : str := u " " ++ u (fst kv) ++ u "=" ++ [34%N] ++ snd kv ++ [34%N].
(** BeautifulSoup: the tags and strings of an element in order. (html_output_pairwise.py:213) *)
Fixpoint pieces (n : node) : list piece :=
  match n with
  | Text s => [PText s]
  | Elem name attrs kids => PTag (u name ++ concat (map attr_text attrs)) :: flat_map pieces kids ++ [PTag (u "/" ++ u name)]
  end.
(** The formatter 'minimal' of BeautifulSoup: &, < and > in strings (html_output_pairwise.py:213) *)
Definition bs_char (c : N) : str := if N.eqb c 38 then u "&amp;" else if N.eqb c 60 then u "&lt;" else if N.eqb c 62 then u "&gt;" else [c].
(** BeautifulSoup's minimal formatter on a string. (html_output_pairwise.py:213) *)
Definition bs_escape (s : str) : str := flat_map bs_char s.
(** str(soup): no layout (html_output_scorestar.py:49) *)
Definition piece_str (p : piece) : str := match p with PTag t => [60%N] ++ t ++ [62%N] | PText s => bs_escape s end.
(** str(soup), html_output_scorestar.py:49 *)
Definition soup_str (doc : list node) : str := concat (map piece_str (flat_map pieces doc)).
(** soup.prettify(): blanks and line ends are put between the pieces and blanks at the ends of strings may be
    taken away; how many depends on the version of the library. (html_output_pairwise.py:213) *)
Definition blank (s : str) : Prop := forallb is_space s = true.
(** soup.prettify(), html_output_pairwise.py:213 *)
Inductive pretty : list piece -> str -> Prop :=
| pretty_end ws : blank ws -> pretty [] ws
| pretty_tag ws t ps s : blank ws -> pretty ps s -> pretty (PTag t :: ps) (ws ++ [60%N] ++ t ++ [62%N] ++ s)
| pretty_text ws a x b ps s : blank ws -> blank a -> blank b -> pretty ps s -> pretty (PText (a ++ x ++ b) :: ps) (ws ++ bs_escape x ++ s).

(** ** Title and description *)
(** bool(x) for a JSON value (html_output_common.py:25-27 and 39) *)
Definition json_truthy (j : json) : bool :=
  match j with
  | JNull | JBool false | JStr [] | JArr [] | JObj [] => false
  | JInt z => negb (z =? 0)
  | _ => true
  end.
(** The text of html_output_common.py:24 *)
Definition defdesc : json := JStr (u "(.metadata.title and .metadata.filename missing)").
(** d.get(k, default), html_output_common.py:21-43 *)
Definition or_default (o : option json) (d : json) : json := match o with Some j => j | None => d end.
(** get_abif_title, html_output_common.py:21-31.  Simplification: the jabmod always has 'metadata'. *)
Definition get_abif_title (abifmodel : jabmod) : json :=
  match j_metadata abifmodel with
  | [] => defdesc
  | metadata =>
      let title := or_default (dget (u "title") metadata) JNull in
      if json_truthy title then title else or_default (dget (u "filename") metadata) defdesc
  end.
(** get_abif_desc, html_output_common.py:34-43 *)
Definition get_abif_desc (abifmodel : jabmod) : json :=
  let default_desc := JStr (u "Candidate matchups for " ++ join (u ", ") (dvals (j_candidates abifmodel))) in
  match j_metadata abifmodel with
  | [] => default_desc
  | metadata => or_default (dget (u "description") metadata) default_desc
  end.
(** get_title_for_html, html_output_common.py:46-48 *)
Definition get_title_for_html (abifmodel : jabmod) : str :=
  u "abiflib/html_output.py Results: " ++ json_fstr (get_abif_title abifmodel).

(** ** The page *)
(* soup.new_tag with a style, html_output_pairwise.py:124-155. *)
Definition td_style (style : string) (kids : list node) : node := Elem "td" [("style"%string, u style)] kids.
(** The dagger of html_output_pairwise.py:171-172 *)
Definition dagger : node := Elem "sup" [] [Text [8224%N]].
(** html_output_pairwise.py:149-177 *)
Definition cell_node (c : cell) : node :=
  td_style "justify-content: center;"
    [Elem "div" [("style"%string, u "text-align: right;")]
       [Elem "div" [("style"%string, u "white-space: nowrap;")] [Text (ce_rk c ++ u ": " ++ z2s (ce_rkscore c))];
        Elem "div" [("style"%string, u "white-space: nowrap;")] (Text (ce_ck c ++ u ": " ++ z2s (ce_ckscore c)) :: (if ce_dagger c then [dagger] else []))]].
(** html_output_pairwise.py:118-186: one row *)
Definition row_node (r : hrow) : node :=
  Elem "tr" []
    ([Elem "th" [] [Text (hr_label r)];
      Elem "td" [("colspan"%string, z2s (hr_colspan r)); ("style"%string, u "padding-right: 3em;")] [Text (hr_wlt r)]]
     ++ match hr_caption r with
        | Some cap => [td_style "text-align: center;" [Elem "div" [] [Text cap]; Elem "div" [("style"%string, u "float: center;")] [Text [8595%N]]]]
        | None => []
        end
     ++ map cell_node (hr_cells r)
     ++ [Elem "td" [] [Text (hr_losses r)]]).
(** The text of html_output_pairwise.py:201-204 *)
Definition remark : str :=
  [34%N] ++ u "Victories" ++ [34%N] ++ u " and " ++ [34%N] ++ u "losses" ++ [34%N] ++ u " sometimes aren't displayed in the expected location when there "
  ++ u "are ties and/or cycles in the results, but the numbers provided should be accurate.".
(** html_output_pairwise.py:188-204.  [svg] is the diagram as parsed from svg_text, if any. *)
Definition results_div (svg : option (list node)) (t : list hrow * bool) : node :=
  let hscroll kids := Elem "div" [("class"%string, u "hscroll")] kids in
  Elem "div" []
    (match svg with Some s => [hscroll s] | None => [] end
     ++ [hscroll [Elem "table" [("border"%string, u "1")] (map row_node (fst t))]]
     ++ (if snd t then [dagger; Text remark] else [])).
(** htmltable_pairwise_and_winlosstie, html_output_pairwise.py:29-215, with add_desc, validate False or a model
    below the limit; [t] is html_table. *)
Definition html_page (abifmodel : jabmod) (snippet : bool) (svg : option (list node)) (t : list hrow * bool) : list node :=
  let desc := Elem "p" [] [Text (json_fstr (get_abif_desc abifmodel))] in
  if snippet then [desc; results_div svg t]
  else [Elem "html" []
          [Elem "head" [] [Elem "title" [] [Text (get_title_for_html abifmodel)]];
           Elem "body" [] [Elem "h1" [] [Text (get_title_for_html abifmodel)]; desc; results_div svg t]]].

(** ** html_score_and_star, html_output_scorestar.py:31-50 *)
(** html.escape of one character (html_output_scorestar.py:34) *)
Definition html_char (c : N) : str :=
  if N.eqb c 38 then u "&amp;" else if N.eqb c 60 then u "&lt;" else if N.eqb c 62 then u "&gt;" else if N.eqb c 34 then u "&quot;" else if N.eqb c 39 then u "&#x27;" else [c].
(** [content] is STAR_report (a string, so line 34 walks its characters); [star_json] and [scaled_json] are the texts of lines 40 and 42
    (the second has floats, so it is a parameter). (html_output_scorestar.py:31-45) *)
Definition score_and_star_text (content star_json scaled_json : str) : str := concat (map html_char content) ++ star_json ++ scaled_json.
(** html_score_and_star, html_output_scorestar.py:31-50 *)
Definition html_score_and_star (content star_json scaled_json : str) : str :=
  soup_str [Elem "pre" [] [Text (score_and_star_text content star_json scaled_json)]].

(** ** The text tables *)
(** re.subn(r"\|", "+", ln, count=n): the text and how many were replaced (textoutput.py:128) *)
Fixpoint subn_bar (n : nat) (ln : str) : str * nat :=
  match ln with
  | [] => ([], O)
  | c :: r =>
      match n with
      | O => (ln, O)
      | S k => if N.eqb c 124 then let (t, j) := subn_bar k r in (43%N :: t, S j) else let (t, j) := subn_bar n r in (c :: t, j)
      end
  end.
(** textoutput.py:127-130: two bars of a line become plus signs, if it has two *)
Definition bars (ln : str) : str := let (newln, count) := subn_bar 2 ln in if (1 <? count)%nat then newln else ln.
(** textoutput.py:122-124: the rule below the header *)
Definition equalsigns (ln : str) : str := map (fun c => if N.eqb c 45 then 61%N else c) ln.
(** l[n] = x, textoutput.py:124 and 130 *)
Fixpoint set_nth {A} (n : nat) (x : A) (l : list A) : list A :=
  match n, l with O, _ :: r => x :: r | S k, y :: r => y :: set_nth k x r | _, [] => [] end.
(** textoutput.py:49-66 and 117-134: what is made of the drawn table *)
Definition table_text (drawn : str) : result str :=
  let tabletextarray := splitlines drawn in
  let* header_break := of_option IndexError (nth_error tabletextarray 3) in
  Ok (join [10%N] (map bars (set_nth 3 (equalsigns header_break) tabletextarray)) ++ [10%N; 10%N]).
(** headerfy_text_file, textoutput.py:137-143 *)
Definition headerfy_text_file (filetext filename : str) : str :=
  u "============================" ++ [10%N] ++ filename ++ [10%N] ++ u "-------------------------" ++ [10%N] ++ filetext.
