(** * UrlText: UTF-8 and the parts of urllib.parse that abiflib uses (quote_plus, parse_qs).

    Models the Python 3.11 standard library (Lib/urllib/parse.py, the utf-8 codec), not code of
    /repo; it is used by core.py:470-479 and nameq.py. *)

From Verif Require Import PyBase.
Local Open Scope N_scope.

(** A Unicode scalar value; a Python str may also hold lone surrogates, which UTF-8 cannot encode. *)
Definition scalar (c : N) : bool := (c <? 55296) || (57344 <=? c) && (c <? 1114112).

(** UTF-8 bytes of one scalar value. *)
Definition utf8_char (c : N) : list N :=
  if c <? 128 then [c]
  else if c <? 2048 then [192 + c / 64; 128 + c mod 64]
  else if c <? 65536 then [224 + c / 4096; 128 + c / 64 mod 64; 128 + c mod 64]
  else [240 + c / 262144; 128 + c / 4096 mod 64; 128 + c / 64 mod 64; 128 + c mod 64].

(** string.encode('utf-8', 'strict') *)
Definition utf8_encode (s : str) : result (list N) :=
  if forallb scalar s then Ok (flat_map utf8_char s) else Err UnicodeError.

(** Continuation byte in a given range. *)
Definition inr (lo hi b : N) : bool := (lo <=? b) && (b <=? hi).
(** A continuation byte of UTF-8 *)
Definition cont (b : N) : bool := inr 128 191 b.
(** Allowed second bytes after lead byte [b] of a three- or four-byte sequence. *)
Definition second3 (b b2 : N) : bool :=
  if b =? 224 then inr 160 191 b2 else if b =? 237 then inr 128 159 b2 else cont b2.
(** The same for a four-byte sequence. *)
Definition second4 (b b2 : N) : bool :=
  if b =? 240 then inr 144 191 b2 else if b =? 244 then inr 128 143 b2 else cont b2.

(** U+FFFD, what errors='replace' puts for bytes that cannot be decoded *)
Definition repl : N := 65533.

(** bytes.decode('utf-8', 'replace'): a maximal ill-formed prefix becomes one U+FFFD. *)
Fixpoint utf8_decode (s : list N) : str :=
  match s with
  | [] => []
  | b :: r =>
      if b <? 128 then b :: utf8_decode r
      else if inr 194 223 b then
        match r with
        | b2 :: r2 => if cont b2 then ((b - 192) * 64 + (b2 - 128)) :: utf8_decode r2
                      else repl :: utf8_decode r
        | [] => [repl]
        end
      else if inr 224 239 b then
        match r with
        | b2 :: r2 =>
            if second3 b b2 then
              match r2 with
              | b3 :: r3 => if cont b3 then ((b - 224) * 4096 + (b2 - 128) * 64 + (b3 - 128)) :: utf8_decode r3
                            else repl :: utf8_decode r2
              | [] => [repl]
              end
            else repl :: utf8_decode r
        | [] => [repl]
        end
      else if inr 240 244 b then
        match r with
        | b2 :: r2 =>
            if second4 b b2 then
              match r2 with
              | b3 :: r3 =>
                  if cont b3 then
                    match r3 with
                    | b4 :: r4 =>
                        if cont b4 then
                          ((b - 240) * 262144 + (b2 - 128) * 4096 + (b3 - 128) * 64 + (b4 - 128)) :: utf8_decode r4
                        else repl :: utf8_decode r3
                    | [] => [repl]
                    end
                  else repl :: utf8_decode r2
              | [] => [repl]
              end
            else repl :: utf8_decode r
        | [] => [repl]
        end
      else repl :: utf8_decode r
  end.

(** The bytes quote() leaves alone: letters, digits, "_.-~". *)
Definition always_safe (c : N) : bool :=
  inr 65 90 c || inr 97 122 c || inr 48 57 c || (c =? 95) || (c =? 46) || (c =? 45) || (c =? 126).

(** One upper-case hexadecimal digit. *)
Definition hexdigit (n : N) : N := if n <? 10 then 48 + n else 55 + n.

(** quote() of one byte; [' '] is left alone too, quote_plus turns it into a plus sign. *)
Definition quote_byte (b : N) : str :=
  if always_safe b then [b] else [37; hexdigit (b / 16); hexdigit (b mod 16)].
(** quote_plus() of one byte *)
Definition quote_plus_byte (b : N) : str := if b =? 32 then [43] else quote_byte b.

(** urllib.parse.quote_plus(s) *)
Definition quote_plus (s : str) : result str :=
  bind (utf8_encode s) (fun bs => Ok (flat_map quote_plus_byte bs)).

(** Value of a hexadecimal digit (either case). *)
Definition unhex (c : N) : option N :=
  if inr 48 57 c then Some (c - 48)
  else if inr 65 70 c then Some (c - 55)
  else if inr 97 102 c then Some (c - 87)
  else None.

(** unquote_to_bytes of an ASCII string: %XX becomes a byte, a malformed escape stays. *)
Fixpoint unquote_to_bytes (s : str) : list N :=
  match s with
  | [] => []
  | c :: r =>
      if c =? 37 then
        match r with
        | h :: (l :: r2) =>
            match unhex h, unhex l with
            | Some a, Some b => (16 * a + b) :: unquote_to_bytes r2
            | _, _ => c :: unquote_to_bytes r
            end
        | _ => c :: unquote_to_bytes r
        end
      else c :: unquote_to_bytes r
  end.

(** The ASCII runs and the non-ASCII runs of a string: unquote() decodes each ASCII run. *)
Fixpoint ascii_runs (s : str) (cur : str) : str :=
  match s with
  | [] => utf8_decode (unquote_to_bytes (rev cur))
  | c :: r =>
      if c <? 128 then ascii_runs r (c :: cur)
      else utf8_decode (unquote_to_bytes (rev cur)) ++ c :: ascii_runs r []
  end.

(** urllib.parse.unquote(s): nothing is done to a string without '%'. *)
Definition unquote (s : str) : str :=
  if existsb (N.eqb 37) s then ascii_runs s [] else s.

(** s.replace('+', ' ') in urllib.parse *)
Definition plus_to_space (s : str) : str := map (fun c => if c =? 43 then 32 else c) s.

(** urllib.parse.parse_qsl(s) with default arguments. *)
Definition parse_qsl (qs : str) : list (str * str) :=
  match qs with
  | [] => []
  | _ => flat_map (fun nv => match split_once 61 nv with
                             | Some (n, v) =>
                                 match v with
                                 | [] => []
                                 | _ => [(unquote (plus_to_space n), unquote (plus_to_space v))]
                                 end
                             | None => []
                             end) (split_on 38 qs)
  end.

(** urllib.parse.parse_qs(s): the values of each name, in order. *)
Definition parse_qs (qs : str) : dict (list str) :=
  fold_left (fun d nv => match dget (fst nv) d with
                         | Some vs => dset (fst nv) (vs ++ [snd nv]) d
                         | None => dset (fst nv) [snd nv] d
                         end) (parse_qsl qs) [].
