(** * JsonParse: json.loads and json.dumps(indent=4) (Lib/json/decoder.py, scanner.py, encoder.py and the C
    accelerator), as used by util.py:39 and abiftool.py:177, 230-276.  Models the standard library, not code of
    /repo. *)

From Verif Require Import PyBase Jabmod JsonText.
Local Open Scope N_scope.

(** ** json.dumps with and without indent *)
(** A line break followed by the indentation of a level; nothing without indent. *)
Definition newline_indent (indent : option nat) (level : nat) : str :=
  match indent with None => [] | Some k => 10 :: repeat 32 (k * level)%nat end.
(** The item separator: ", " without indent, "," and a new line with indent. *)
Definition item_sep (indent : option nat) (level : nat) : str :=
  match indent with None => u ", " | Some _ => 44 :: newline_indent indent level end.
(** json.dumps of a value at some level of the indentation (abiftool.py:224-276) *)
Fixpoint dumps_at (indent : option nat) (level : nat) (j : json) : str :=
  match j with
  | JNull => u "null"
  | JBool true => u "true"
  | JBool false => u "false"
  | JInt z => z2s z
  | JStr s => json_str s
  | JArr [] => u "[]"
  | JArr l => u "[" ++ newline_indent indent (S level)
      ++ join (item_sep indent (S level)) (map (dumps_at indent (S level)) l) ++ newline_indent indent level ++ u "]"
  | JObj [] => u "{}"
  | JObj l => u "{" ++ newline_indent indent (S level)
      ++ join (item_sep indent (S level)) (map (fun kv => json_str (fst kv) ++ u ": " ++ dumps_at indent (S level) (snd kv)) l)
      ++ newline_indent indent level ++ u "}"
  end.
(** json.dumps(j, indent=k) *)
Definition dumps_indent (indent : nat) (j : json) : str := dumps_at (Some indent) 0 j.

(** ** json.loads *)
Definition is_json_ws (c : N) : bool := (c =? 32) || (c =? 9) || (c =? 10) || (c =? 13).
(** json.decoder: white space is skipped *)
Fixpoint skip_ws (s : str) : str :=
  match s with c :: r => if is_json_ws c then skip_ws r else s | [] => [] end.
(** One ASCII hexadecimal digit, either case. *)
Definition hexval (c : N) : option N :=
  if (48 <=? c) && (c <=? 57) then Some (c - 48)
  else if (97 <=? c) && (c <=? 102) then Some (c - 87)
  else if (65 <=? c) && (c <=? 70) then Some (c - 55)
  else None.
(** The value of four hexadecimal digits of an escape *)
Definition hexval4 (a b c d : N) : option N :=
  match hexval a, hexval b, hexval c, hexval d with
  | Some a, Some b, Some c, Some d => Some (4096 * a + 256 * b + 16 * c + d)
  | _, _, _, _ => None
  end.
(** A high surrogate *)
Definition is_high (n : N) : bool := (55296 <=? n) && (n <=? 56319).
(** A low surrogate *)
Definition is_low (n : N) : bool := (56320 <=? n) && (n <=? 57343).
(** json.decoder's BACKSLASH table *)
Definition escape_val (e : N) : option N :=
  if e =? 34 then Some 34 else if e =? 92 then Some 92 else if e =? 47 then Some 47
  else if e =? 98 then Some 8 else if e =? 102 then Some 12 else if e =? 110 then Some 10
  else if e =? 114 then Some 13 else if e =? 116 then Some 9 else None.
(** Not in /repo: one more character in front of a scanned string. *)
Definition push (c : N) (x : option (str * str)) : option (str * str) :=
  match x with Some (s, r) => Some (c :: s, r) | None => None end.
(** scanstring, strict=True: the string after an opening quote, and what follows its closing quote. *)
Fixpoint scanstring (s : str) : option (str * str) :=
  match s with
  | [] => None
  | c :: r =>
      if c =? 34 then Some ([], r)
      else if c =? 92 then
        match r with
        | [] => None
        | e :: r1 =>
            if e =? 117 then
              match r1 with
              | a :: b :: c' :: d :: r2 =>
                  match hexval4 a b c' d with
                  | None => None
                  | Some n =>
                      if is_high n then
                        match r2 with
                        | x :: y :: a2 :: b2 :: c2 :: d2 :: r3 =>
                            if (x =? 92) && (y =? 117) then
                              match hexval4 a2 b2 c2 d2 with
                              | None => None
                              | Some m => if is_low m then push (65536 + (1024 * (n - 55296) + (m - 56320))) (scanstring r3)
                                          else push n (scanstring r2)
                              end
                            else push n (scanstring r2)
                        | _ => push n (scanstring r2)
                        end
                      else push n (scanstring r2)
                  end
              | _ => None
              end
            else match escape_val e with Some x => push x (scanstring r1) | None => None end
        end
      else if c <? 32 then None
      else push c (scanstring r)
  end.

(** [0-9] of json.decoder's NUMBER_RE *)
Definition is_ascii_digit (c : N) : bool := (48 <=? c) && (c <=? 57).
(** The longest prefix of ASCII digits. *)
Fixpoint span_digits (s : str) : str * str :=
  match s with
  | c :: r => if is_ascii_digit c then (c :: fst (span_digits r), snd (span_digits r)) else ([], s)
  | [] => ([], [])
  end.
(** int() of ASCII digits *)
Definition digits_to_N (s : str) : N := fold_left (fun acc c => 10 * acc + (c - 48)) s 0.
(** Does a fraction or an exponent follow?  The value is then a float. *)
Definition float_follows (r : str) : bool :=
  match r with
  | c :: d :: r' =>
      if c =? 46 then is_ascii_digit d
      else if (c =? 101) || (c =? 69) then
        is_ascii_digit d || (((d =? 43) || (d =? 45)) && match r' with d' :: _ => is_ascii_digit d' | [] => false end)
      else false
  | _ => false
  end.
(** s[len(p):] if s starts with p *)
Fixpoint starts_with (p s : str) : option str :=
  match p, s with
  | [], _ => Some s
  | x :: p', y :: s' => if x =? y then starts_with p' s' else None
  | _, [] => None
  end.
(** The digits of a number, after the optional minus sign.  Simplification: floats are outside the model, a float
    (or NaN, Infinity, -Infinity) is GenericException. *)
Definition scan_number (neg : bool) (s : str) : result (json * str) :=
  match s with
  | c :: r =>
      let '(ds, rest) := if c =? 48 then ([48], r) else span_digits s in
      match ds with
      | [] => match starts_with (u "Infinity") s with Some _ => Err GenericException | None => Err ValueError end
      | _ => if float_follows rest then Err GenericException
             else Ok (JInt (if neg then Z.opp (Z.of_N (digits_to_N ds)) else Z.of_N (digits_to_N ds)), rest)
      end
  | [] => Err ValueError
  end.

Local Open Scope res_scope.
(** The elements of an array: [s] is at the first element.  [n] bounds the number of elements. *)
Fixpoint scan_elems (scan : str -> result (json * str)) (n : nat) (s : str) : result (list json * str) :=
  match n with
  | O => Err RecursionError
  | S n' =>
      let* vr := scan s in
      match skip_ws (snd vr) with
      | c :: r =>
          if c =? 93 then Ok ([fst vr], r)
          else if c =? 44 then let* vsr := scan_elems scan n' (skip_ws r) in Ok (fst vr :: fst vsr, snd vsr)
          else Err ValueError
      | [] => Err ValueError
      end
  end.
(** The members of an object: [s] is at the first key. *)
Fixpoint scan_members (scan : str -> result (json * str)) (n : nat) (s : str) : result (list (str * json) * str) :=
  match n with
  | O => Err RecursionError
  | S n' =>
      match s with
      | q :: s1 =>
          if q =? 34 then
            match scanstring s1 with
            | None => Err ValueError
            | Some (k, s2) =>
                match skip_ws s2 with
                | c :: s3 =>
                    if c =? 58 then
                      let* vr := scan (skip_ws s3) in
                      match skip_ws (snd vr) with
                      | e :: r =>
                          if e =? 125 then Ok ([(k, fst vr)], r)
                          else if e =? 44 then let* vsr := scan_members scan n' (skip_ws r) in Ok ((k, fst vr) :: fst vsr, snd vsr)
                          else Err ValueError
                      | [] => Err ValueError
                      end
                    else Err ValueError
                | [] => Err ValueError
                end
            end
          else Err ValueError
      | [] => Err ValueError
      end
  end.
(** dict(pairs): a key met again keeps its place and takes the later value *)
Definition dict_of_pairs {V} (l : list (str * V)) : dict V := fold_left (fun d kv => dset (fst kv) (snd kv) d) l [].
(** scan_once; [n] bounds the nesting depth. *)
Fixpoint scan_once (n : nat) (s : str) : result (json * str) :=
  match n with
  | O => Err RecursionError
  | S n' =>
      match s with
      | [] => Err ValueError
      | c :: r =>
          if c =? 34 then match scanstring r with Some (t, r') => Ok (JStr t, r') | None => Err ValueError end
          else if c =? 123 then
            match skip_ws r with
            | e :: r' => if e =? 125 then Ok (JObj [], r')
                         else let* mr := scan_members (scan_once n') (length r) (skip_ws r) in Ok (JObj (dict_of_pairs (fst mr)), snd mr)
            | [] => Err ValueError
            end
          else if c =? 91 then
            match skip_ws r with
            | e :: r' => if e =? 93 then Ok (JArr [], r')
                         else let* lr := scan_elems (scan_once n') (length r) (skip_ws r) in Ok (JArr (fst lr), snd lr)
            | [] => Err ValueError
            end
          else match starts_with (u "null") s with
          | Some r' => Ok (JNull, r')
          | None => match starts_with (u "true") s with
          | Some r' => Ok (JBool true, r')
          | None => match starts_with (u "false") s with
          | Some r' => Ok (JBool false, r')
          | None =>
              if c =? 45 then scan_number true r
              else match starts_with (u "NaN") s, starts_with (u "Infinity") s with
                   | None, None => scan_number false s
                   | _, _ => Err GenericException
                   end
          end end end
      end
  end.
(** json.loads(s) for a str.  JSONDecodeError is a ValueError. *)
Definition json_loads (s : str) : result json :=
  match s with
  | 65279 :: _ => Err ValueError
  | _ =>
      let* vr := scan_once (S (length s)) (skip_ws s) in
      match skip_ws (snd vr) with [] => Ok (fst vr) | _ => Err ValueError end
  end.
