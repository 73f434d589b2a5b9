(** * DiagramModel: abiflib/vizelect.py, abiflib/html_output_pairwise.py, abiflib/textoutput.py

    What is handed to graphviz, BeautifulSoup and texttable; their rendering is not modelled. *)

From Verif Require Import PyBase Jabmod PairwiseModel.
Local Open Scope Z_scope.
Local Open Scope res_scope.

(** A line feed, as in the labels of vizelect.py:42, 45 and 53 *)
Definition nl_s : str := [10%N].

(** f"{wins}-{losses}-{ties}", vizelect.py:42, html_output_pairwise.py:46-51, textoutput.py:70-74 *)
Definition wlt_text (w : wlt) : str := z2s (wins w) ++ u "-" ++ z2s (losses w) ++ u "-" ++ z2s (ties w).

(** ** The diagram *)
(* What vizelect.py:34-54 gives to graphviz: nodes with labels, edges with labels. *)
Record digraph := Digraph { g_nodes : list (str * str); g_edges : list (str * str * str) }.

(** max(winlosstie, key=...), vizelect.py:31-32: the first key with the most wins; ValueError if there is none. *)
Fixpoint max_wins (best : str * wlt) (l : list (str * wlt)) : str :=
  match l with
  | [] => fst best
  | x :: r => max_wins (if wins (snd best) <? wins (snd x) then x else best) r
  end.
(** vizelect.py:31-32: the key max() finds; ValueError on an empty table *)
Definition top_candidate (winlosstie : dict wlt) : result str :=
  match winlosstie with [] => Err ValueError | x :: r => Ok (max_wins x r) end.

(** vizelect.py:37-46 *)
Definition node_label (top : str) (cand : str) (w : wlt) : str :=
  cand ++ nl_s ++ wlt_text w ++
  (if str_eqb cand top then nl_s ++ u "(" ++ z2s (wins w) ++ u " wins, " ++ z2s (losses w) ++ u " losses, " ++ z2s (ties w) ++ u " ties)" else []).

(** vizelect.py:49-54: the arrow, if any, for one entry of the matrix.  8592 is the left arrow. *)
Definition edge_label (wcand lcand : str) (wtally ltally : Z) : str :=
  [8592%N] ++ u " " ++ wcand ++ u ": " ++ z2s wtally ++ nl_s ++ lcand ++ u ": " ++ z2s ltally.
(** vizelect.py:49-54: one entry of the matrix *)
Definition edge_for (winningvotes : pairmat) (wcand lcand : str) (wtally : option Z) : result (list (str * str * str)) :=
  let* ltally := mat_getE lcand wcand winningvotes in
  if str_eqb wcand lcand then Ok []
  else match wtally, ltally with
       | Some w, Some l => Ok (if l <=? w then [(wcand, lcand, edge_label wcand lcand w l)] else [])
       | _, _ => Err TypeError
       end.

(** copecount_diagram, vizelect.py:26-54, up to dot.pipe *)
Definition copecount_diagram (cc : copecount) : result digraph :=
  let* top := top_candidate (cc_winlosstie cc) in
  let nodes := map (fun cw => (fst cw, node_label top (fst cw) (snd cw))) (cc_winlosstie cc) in
  let* edges := mapM (fun row => let* es := mapM (fun lt => edge_for (cc_winningvotes cc) (fst row) (fst lt) (snd lt)) (snd row) in Ok (concat es))
                     (cc_winningvotes cc) in
  Ok (Digraph nodes (concat edges)).

(** ** The html table *)
(* One cell of the table, html_output_pairwise.py:150-177. *)
Record cell := Cell { ce_rk : str; ce_rkscore : Z; ce_ck : str; ce_ckscore : Z; ce_dagger : bool }.
(** One row of the table, html_output_pairwise.py:116-186 *)
Record hrow := HRow {
  hr_label : str; hr_wlt : str; hr_colspan : Z; hr_caption : option str; hr_cells : list cell; hr_losses : str
}.

(** candtoks.index(x); ValueError if absent (html_output_pairwise.py:154) *)
Fixpoint index_of (x : str) (l : list str) : result nat :=
  match l with
  | [] => Err ValueError
  | y :: r => if str_eqb x y then Ok O else let* i := index_of x r in Ok (S i)
  end.

(** html_output_pairwise.py:147-177: the cell, if any, of column ck in row rk (the code's words). *)
Definition html_cell (pairdict : pairmat) (candtoks : list str) (ck rk : str) : result (list cell) :=
  if str_eqb ck rk then Ok []
  else
    let* ic := index_of ck candtoks in
    let* ir := index_of rk candtoks in
    if (ic <? ir)%nat then Ok []
    else
      let* rkscore := mat_getE rk ck pairdict in
      let* ckscore := mat_getE ck rk pairdict in
      match rkscore, ckscore with
      | Some r, Some c => Ok [Cell rk r ck c (negb (c <? r))]
      | _, _ => Err TypeError
      end.

(** html_output_pairwise.py:116-186: one row.  [wltcolspan] is the counter of lines 109 and 185. *)
Definition html_row (candnames : dict str) (pairdict : pairmat) (wltdict : dict wlt) (candtoks : list str) (wltcolspan : Z) (ck : str) : result hrow :=
  let* name := dgetE ck candnames in
  let* w := dgetE ck wltdict in
  let* cells := mapM (html_cell pairdict candtoks ck) (rev candtoks) in
  Ok (HRow (if str_eqb ck name then name else name ++ u " [" ++ [34%N] ++ ck ++ [34%N] ++ u "]")
           (u "(" ++ wlt_text w ++ u ")")
           (if 0 <? wins w then wltcolspan else wltcolspan + 1)
           (if 0 <? wins w then Some (ck ++ u " victories") else None)
           (concat cells)
           (if 0 <? losses w then [8592%N] ++ u " " ++ ck ++ u " losses" else ck ++ u " is undefeated")).
(** html_output_pairwise.py:116-186: the loop over the candidates *)
Fixpoint html_rows (candnames : dict str) (pairdict : pairmat) (wltdict : dict wlt) (candtoks : list str) (wltcolspan : Z) (todo : list str) : result (list hrow) :=
  match todo with
  | [] => Ok []
  | ck :: r =>
      let* row := html_row candnames pairdict wltdict candtoks wltcolspan ck in
      let* rows := html_rows candnames pairdict wltdict candtoks (wltcolspan - 1) r in
      Ok (row :: rows)
  end.

(** html_output_pairwise.py:199-200: the dagger made last is appended below the table; BeautifulSoup moves
    an element that already has a parent, so it disappears from its cell. *)
Definition unmarked (c : cell) : cell := Cell (ce_rk c) (ce_rkscore c) (ce_ck c) (ce_ckscore c) false.
(** html_output_pairwise.py:199-200: the last dagger of a row goes; was there one? *)
Fixpoint unmark_cells (cs : list cell) : list cell * bool :=
  match cs with
  | [] => ([], false)
  | c :: r => let (r', gone) := unmark_cells r in
              if gone then (c :: r', true)
              else if ce_dagger c then (unmarked c :: r', true) else (c :: r', false)
  end.
(** Not in /repo: the row with other cells. *)
Definition with_cells (r : hrow) (cs : list cell) : hrow := HRow (hr_label r) (hr_wlt r) (hr_colspan r) (hr_caption r) cs (hr_losses r).
(** html_output_pairwise.py:199-200: the last dagger of the table goes *)
Fixpoint unmark_rows (rs : list hrow) : list hrow * bool :=
  match rs with
  | [] => ([], false)
  | r :: rest => let (rest', gone) := unmark_rows rest in
                 if gone then (r :: rest', true)
                 else let (cs, g) := unmark_cells (hr_cells r) in (with_cells r cs :: rest', g)
  end.

(** sorted(pairdict.keys(), key=lambda x: wltdict[x]['wins'], reverse=True), html_output_pairwise.py:54-59 (also textoutput.py:85-87) *)
Definition by_wins (wltdict : dict wlt) (keys : list str) : result (list str) :=
  let* l := mapM (fun x => let* w := dgetE x wltdict in Ok (x, wins w)) keys in
  Ok (map fst (sort_desc snd l)).

(** htmltable_pairwise_and_winlosstie, html_output_pairwise.py:29-215: the rows of the table, and whether the
    remark on ties and cycles is added.  Title, description and svg are not modelled. *)
Definition html_table (abifmodel : jabmod) : result (list hrow * bool) :=
  let* pairdict := pairwise_count_dict abifmodel in
  let* wltdict := winlosstie_dict_from_pairdict (j_candidates abifmodel) pairdict in
  let* candtoks := by_wins wltdict (dkeys pairdict) in
  let* rows := html_rows (j_candidates abifmodel) pairdict wltdict candtoks (Z.of_nat (length candtoks) + 1) candtoks in
  Ok (unmark_rows rows).

(** ** The text tables *)
(** textgrid_for_2D_dict, textoutput.py:38-45: the rows added. *)
Definition textgrid_rows (twodimdict : pairmat) : list str * list (str * list (option Z)) :=
  (dkeys twodimdict, map (fun row => (fst row, map snd (snd row))) twodimdict).
(** texttable_pairwise_and_winlosstie, textoutput.py:69-113: the rows added. *)
Definition texttable_rows (abifmodel : jabmod) : result (list str * list (str * list (option Z))) :=
  let* pairdict := pairwise_count_dict abifmodel in
  let* wltdict := winlosstie_dict_from_pairdict (j_candidates abifmodel) pairdict in
  let* candkeys := by_wins wltdict (dkeys pairdict) in
  let* rows := mapM (fun ck =>
      let* inner := dgetE ck pairdict in
      let* vals := mapM (fun ik => mat_getE ck ik pairdict) candkeys in
      let* w := dgetE ck wltdict in
      Ok (ck ++ u " (" ++ wlt_text w ++ u ")", vals)) candkeys in
  Ok (candkeys, rows).
