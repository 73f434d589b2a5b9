(** * DebtallyModel: abiflib/debtally.py *)

From Verif Require Import PyBase Regex UrlText.
Local Open Scope Z_scope.
Local Open Scope res_scope.

(** re.search(r, s) for an unanchored pattern: the leftmost position where it matches. (debtally.py:14 and 26, preflib.py:23 and 41) *)
Fixpoint re_search (r : regex) (s : str) : option (caps * str) :=
  match re_match r s with
  | Some x => Some x
  | None => match s with [] => None | _ :: s' => re_search r s' end
  end.

(** debtally.py:12.  Groups: 1 number, 2 name. *)
Definition OPTION_REGEX : regex := RSeqs
  [ RWord (u "Option "); RGrp 1 (RPlus is_digit); RStar any_char; RLit 58%N; RPlus is_space; RGrp 2 (RStar any_char) ].

(** debtally.py:24, anchored by ^.  Groups: 1 marks, 2 voter id. *)
Definition mark_char (c : N) : bool := N.eqb c 45 || is_digit c.
(** The pattern of debtally.py:24 *)
Definition VLINE_REGEX : regex := RSeqs
  [ RWord (u "V: "); RGrp 1 (RPlus mark_char); RPlus is_space; RGrp 2 (RPlus non_space); RStar any_char; REnd ].

(** _extract_option_names_from_tally_sheet, debtally.py:8-17 *)
Definition option_names (sheet : str) : list str :=
  flat_map (fun line => match re_search OPTION_REGEX line with
                        | Some (g, _) => [group 2 g]
                        | None => []
                        end) (splitlines sheet).

(** _extract_vline_rankings_from_tally_sheet, debtally.py:20-36: the voter id and the marks, one
    character each. *)
Definition vline_rankings (sheet : str) : list (str * list N) :=
  flat_map (fun line => match re_match VLINE_REGEX line with
                        | Some (g, _) => [(group 2 g, group 1 g)]
                        | None => []
                        end) (splitlines sheet).

(** base64.b32encode(b)[:4] for the first bytes b0 b1 b2 of a digest, debtally.py:41-42: five bits per
    character. *)
Definition b32_char (v : N) : N := if (v <? 26)%N then (65 + v)%N else (24 + v)%N.    (* A-Z, 2-7 *)
(* debtally.py:41-42: the four characters. *)
Definition b32_4 (d : list N) : str :=
  match d with
  | b0 :: b1 :: b2 :: _ =>
      map b32_char [ (b0 / 8)%N; ((b0 mod 8) * 4 + b1 / 64)%N; ((b1 / 2) mod 32)%N; ((b1 mod 2) * 16 + b2 / 16)%N ]
  | _ => []
  end.

(** Letters and digits of [A-Za-z0-9]. (debtally.py:47 and 52) *)
Definition alnum (c : N) : bool :=
  ((48 <=? c) && (c <=? 57) || (65 <=? c) && (c <=? 90) || (97 <=? c) && (c <=? 122))%N.

(** The pattern ^[A-Za-z0-9]+$ of debtally.py:47 and sftxt.py:270 *)
Definition ALNUM_REGEX : regex := RSeq (RPlus alnum) REnd.

(** s.split(): the maximal runs of characters that are not white space. (debtally.py:51) *)
Definition push_word (cur : str) (l : list str) : list str := match cur with [] => l | _ => rev cur :: l end.
(** s.split(), debtally.py:51 (see [push_word]) *)
Fixpoint split_ws (cur s : str) : list str :=
  match s with
  | [] => push_word cur []
  | c :: r => if is_space c then push_word cur (split_ws [] r) else split_ws (c :: cur) r
  end.

(** SHA-1 is not modelled: the parameter [sha1] maps bytes to the digest and is an arbitrary function. (debtally.py:40) *)
Definition hash : Type := list N -> list N.

(** _trunc_sha_str, debtally.py:39-42 (trunclen = 4) *)
Definition trunc_sha (sha1 : hash) (basestr : str) : result str :=
  let* b := utf8_encode basestr in Ok (b32_4 (sha1 b)).

(** _short_token, debtally.py:45-59 (max_length = 20) *)
Definition deb_short_token (sha1 : hash) (longstring : str) (add_sha1 : bool) : result str :=
  if (length longstring <=? 20)%nat && match re_match ALNUM_REGEX longstring with Some _ => true | None => false end
  then Ok longstring
  else
    let base := concat (map (filter alnum) (split_ws [] longstring)) in
    if add_sha1 then let* s := trunc_sha sha1 longstring in Ok (firstn 16 base ++ s)
    else Ok (firstn 20 base).

(** re.sub('(?i)none of the above', 'NOTA', o), debtally.py:66.  Only the ASCII letters match a letter
    of the pattern when case is ignored.  [skip] counts the characters of the match still to drop. *)
Definition lower (c : N) : N := if ((65 <=? c) && (c <=? 90))%N then (c + 32)%N else c.
(** debtally.py:66: does the pattern match here, ignoring case? *)
Fixpoint ci_prefix (p s : str) : bool :=
  match p, s with
  | [], _ => true
  | x :: p', y :: s' => N.eqb x (lower y) && ci_prefix p' s'
  | _ :: _, [] => false
  end.
(** The pattern of debtally.py:66 *)
Definition k_nota : str := u "none of the above".
(** re.sub of debtally.py:66 *)
Fixpoint sub_nota (skip : nat) (s : str) : str :=
  match s with
  | [] => []
  | c :: r =>
      match skip with
      | S k => sub_nota k r
      | O => if ci_prefix k_nota s then u "NOTA" ++ sub_nota (length k_nota - 1) r else c :: sub_nota 0 r
      end
  end.

(** _get_short_option_names, debtally.py:62-72: [seen] is tokset. *)
Fixpoint short_option_names (sha1 : hash) (seen : list str) (names : list str) : result (list str) :=
  match names with
  | [] => Ok []
  | o :: r =>
      let o2 := sub_nota 0 o in
      let* t0 := deb_short_token sha1 o2 false in
      let* t := if memb t0 seen then deb_short_token sha1 o2 true else Ok t0 in
      let* ts := short_option_names sha1 (t :: seen) r in
      Ok (t :: ts)
  end.

(** debtally.py:95-96: the options whose mark is the text of rank [r]. *)
Fixpoint marked_at (strrank : str) (i : nat) (pref : list N) : list nat :=
  match pref with
  | [] => []
  | ir :: r => if str_eqb [ir] strrank then i :: marked_at strrank (S i) r else marked_at strrank (S i) r
  end.

(** debtally.py:94-99 *)
Definition vote_tiers (shorts : list str) (numopt : nat) (pref : list N) : result (list str) :=
  let* tiers := mapM (fun r =>
      match marked_at (n2s (N.of_nat (r + 1))) 0 pref with
      | [] => Ok []
      | crs => let* names := mapM (fun i => of_option IndexError (nth_error shorts i)) crs in
               Ok [join [61%N] names]
      end) (seq 0 numopt) in
  Ok (concat tiers).

(** convert_debtally_to_abif, debtally.py:75-103.  Simplification: the metadata values are strings (their
    str() is what is written). *)
Definition convert_debtally_to_abif (sha1 : hash) (sheet : str) (metadata : dict str) : result str :=
  let names := option_names sheet in
  let* shorts := short_option_names sha1 [] names in
  let* votes := mapM (fun v =>
      let* tiers := vote_tiers shorts (length names) (snd v) in
      Ok (u "1:" ++ join [62%N] tiers ++ u "  ##VID:" ++ fst v ++ [10%N])) (vline_rankings sheet) in
  Ok (concat (map (fun kv => u "{" ++ [34%N] ++ fst kv ++ [34%N] ++ u ": " ++ [34%N] ++ snd kv ++ [34%N] ++ u "}" ++ [10%N]) metadata)
      ++ concat (map (fun on => u "=" ++ fst on ++ u ":[" ++ snd on ++ u "]" ++ [10%N]) (combine shorts names))
      ++ u "# ---------------" ++ [10%N] ++ concat votes).
