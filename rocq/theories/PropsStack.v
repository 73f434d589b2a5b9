(** * PropsStack: C89, the names of the calling functions *)

From Coq Require Import Lia.
From Verif Require Import PyBase PyFacts PreflibModel PreflibFacts LogModel PropsLog StackModel.
Local Open Scope Z_scope.
Local Open Scope res_scope.

(** ** Specification *)
(** The members of a list at the places from lo up to but without hi, counted from k. *)
Fixpoint places_from {A} (k lo hi : Z) (l : list A) : list A :=
  match l with
  | [] => []
  | x :: r => if (lo <=? k) && (k <? hi) then x :: places_from (k + 1) lo hi r else places_from (k + 1) lo hi r
  end.
(** A negative place is counted from the end of a list of length n. *)
Definition from_end (n i : Z) : Z := if i <? 0 then i + n else i.

(** ** Slices *)
Lemma places_nothing {A} (l : list A) : forall k lo hi, hi <= k \/ hi <= lo -> places_from k lo hi l = [].
Proof.
  induction l as [|x l IH]; intros k lo hi H; [reflexivity|]. cbn [places_from]. destruct (Z.leb_spec lo k); cbn [andb]; [|apply IH; lia]. destruct (Z.ltb_spec k hi); [lia|apply IH; lia].
Qed.
Lemma places_low {A} (l : list A) : forall k lo hi, lo <= k -> places_from k lo hi l = firstn (Z.to_nat (hi - k)) l.
Proof.
  induction l as [|x l IH]; intros k lo hi H; [rewrite firstn_nil; reflexivity|]. cbn [places_from]. destruct (Z.leb_spec lo k); [|lia]. cbn [andb]. destruct (Z.ltb_spec k hi).
  - replace (Z.to_nat (hi - k)) with (S (Z.to_nat (hi - (k + 1)))) by lia. cbn [firstn]. f_equal. apply IH. lia.
  - replace (Z.to_nat (hi - k)) with O by lia. cbn [firstn]. apply places_nothing. lia.
Qed.
Lemma places_slice {A} (l : list A) : forall k lo hi, k <= lo -> places_from k lo hi l = firstn (Z.to_nat (hi - lo)) (skipn (Z.to_nat (lo - k)) l).
Proof.
  induction l as [|x l IH]; intros k lo hi H; [rewrite skipn_nil, firstn_nil; reflexivity|]. destruct (Z.eq_dec k lo) as [->|N].
  - replace (Z.to_nat (lo - lo)) with O by lia. cbn [skipn]. apply places_low. lia.
  - replace (Z.to_nat (lo - k)) with (S (Z.to_nat (lo - (k + 1)))) by lia. cbn [skipn]. rewrite <- IH by lia. cbn [places_from]. destruct (Z.leb_spec lo k); [lia|]. reflexivity.
Qed.
Lemma slice_places {A} (l : list A) a b : py_slice l a b = places_from 0 (from_end (Z.of_nat (length l)) a) (from_end (Z.of_nat (length l)) b) l.
Proof.
  unfold py_slice. set (n := Z.of_nat (length l)). set (lo := slice_bound n a). set (hi := slice_bound n b).
  assert (E : forall x y x' y', (forall k, 0 <= k < n -> (x <= k <-> x' <= k) /\ (k < y <-> k < y')) -> places_from 0 x y l = places_from 0 x' y' l).
  { intros x y x' y' H. assert (G : forall (l' : list A) k, 0 <= k -> k + Z.of_nat (length l') <= n -> places_from k x y l' = places_from k x' y' l').
    { induction l' as [|z l' IH]; intros k H0 H1; [reflexivity|]. cbn [length] in H1. cbn [places_from]. rewrite IH by lia. destruct (H k ltac:(lia)) as (H2&H3). destruct (Z.leb_spec x k), (Z.leb_spec x' k), (Z.ltb_spec k y), (Z.ltb_spec k y'); try reflexivity; exfalso; intuition lia. }
    apply G; unfold n; lia. }
  assert (Hlo : 0 <= lo <= n) by (unfold lo, slice_bound; destruct (Z.ltb_spec a 0); lia).
  rewrite (E _ _ lo hi).
  - rewrite places_slice by lia. rewrite Z.sub_0_r. reflexivity.
  - intros k Hk. unfold lo, hi, slice_bound, from_end. destruct (Z.ltb_spec a 0), (Z.ltb_spec b 0); split; lia.
Qed.

(** ** C89 *)
(** abiflib_stackfunc(i): the name of the function i calls up, the one that calls it for i = 1, its own for 0; -1 is the outermost one.  Any other number is an
    IndexError. *)
Theorem C89_stackfunc : forall callers i, let n := Z.of_nat (length callers) in
  (0 < i <= n -> exists f, nth_error callers (Z.to_nat (i - 1)) = Some f /\ abiflib_stackfunc i callers = Ok (fr_function f)) /\
  (- n <= i < 0 -> exists f, nth_error (rev callers) (Z.to_nat (- i - 1)) = Some f /\ abiflib_stackfunc i callers = Ok (fr_function f)) /\
  (i = 0 \/ i = - n - 1 -> abiflib_stackfunc i callers = Ok (u "abiflib_stackfunc")) /\
  (n < i \/ i < - n - 1 -> abiflib_stackfunc i callers = Err IndexError).
Proof.
  intros callers i n. unfold abiflib_stackfunc, py_index. cbn [length]. rewrite Nat2Z.inj_succ. fold n. split; [|split; [|split]].
  - intro H. destruct (nth_error callers (Z.to_nat (i - 1))) as [f|] eqn:E; [|apply nth_error_None in E; lia]. exists f. split; [reflexivity|].
    destruct (Z.ltb_spec i 0); [lia|]. replace (Z.to_nat i) with (S (Z.to_nat (i - 1))) by lia. cbn [nth_error]. rewrite E. destruct (Z.ltb_spec i 0); [lia|]. reflexivity.
  - intro H. assert (Hr : nth_error (rev callers) (Z.to_nat (- i - 1)) = nth_error callers (Z.to_nat (i + n))).
    { assert (Hl : (Z.to_nat (i + n) < length callers)%nat) by lia. rewrite (nth_error_nth' callers stackfunc_frame Hl). assert (Hl' : (Z.to_nat (- i - 1) < length (rev callers))%nat) by (rewrite rev_length; lia).
      rewrite (nth_error_nth' _ stackfunc_frame Hl'). f_equal. rewrite rev_nth by lia. f_equal. lia. }
    rewrite Hr. destruct (nth_error callers (Z.to_nat (i + n))) as [f|] eqn:E; [|apply nth_error_None in E; lia]. exists f. split; [reflexivity|].
    destruct (Z.ltb_spec i 0); [|lia]. destruct (Z.ltb_spec (i + Z.succ n) 0); [lia|]. replace (Z.to_nat (i + Z.succ n)) with (S (Z.to_nat (i + n))) by lia. cbn [nth_error]. rewrite E. reflexivity.
  - intros [->| ->]; [reflexivity|]. destruct (Z.ltb_spec (- n - 1) 0); [|lia]. replace (- n - 1 + Z.succ n) with 0 by lia. reflexivity.
  - intro H. destruct (Z.ltb_spec i 0).
    + destruct (Z.ltb_spec (i + Z.succ n) 0); [reflexivity|lia].
    + destruct (Z.ltb_spec i 0); [lia|]. rewrite (proj2 (nth_error_None _ _)); [reflexivity|]. cbn [length]. lia.
Qed.
Print Assumptions C89_stackfunc.
(** abiflib_callstackstr(start, end): the names of the functions at the places from start up to but without end, its own at place 0, its caller's at 1 and so on, with " < " between
    them; negative places are counted from the outermost function.  It never fails. *)
Theorem C89_callstackstr : forall callers start stop, let stack := u "abiflib_callstackstr" :: map fr_function callers in let n := Z.of_nat (length stack) in
  abiflib_callstackstr start stop callers = join (u " < ") (places_from 0 (from_end n start) (from_end n stop) stack).
Proof.
  intros callers start stop stack n. unfold abiflib_callstackstr. f_equal. rewrite slice_places.
  assert (E : forall (l : list frame) k x y, map fr_function (places_from k x y l) = places_from k x y (map fr_function l)).
  { induction l as [|f l IH]; intros k x y; [reflexivity|]. cbn [places_from map]. destruct (_ && _)%bool; cbn [map]; rewrite IH; reflexivity. }
  rewrite E. assert (El : Z.of_nat (length (callstackstr_frame :: callers)) = n) by (unfold n, stack; cbn [length]; rewrite map_length; reflexivity). rewrite El. reflexivity.
Qed.
Print Assumptions C89_callstackstr.
(** With its default arguments: all the callers but the outermost one (the script itself), the innermost first. *)
Theorem C89_default : forall inner outermost, abiflib_callstackstr 1 (-1) (inner ++ [outermost]) = join (u " < ") (map fr_function inner).
Proof.
  intros inner o. unfold abiflib_callstackstr, py_slice. cbn [length]. rewrite app_length. cbn [length]. f_equal. f_equal. unfold slice_bound. cbn [Z.ltb Z.compare]. set (m := Z.of_nat (S (length inner + 1))).
  assert (Hm : m = Z.of_nat (length inner) + 2) by (unfold m; lia). replace (Z.min 1 m) with 1 by lia. replace (Z.max 0 (-1 + m) - 1) with (Z.of_nat (length inner)) by lia. change (Z.to_nat 1) with 1%nat. cbn [skipn].
  rewrite Nat2Z.id, firstn_app, Nat.sub_diag, firstn_all. cbn [firstn]. apply app_nil_r.
Qed.
Print Assumptions C89_default.
Example C89_sample : let callers := [Frame (u "convert_abif_to_jabmod") (u "core.py") 120; Frame (u "main") (u "abiftool.py") 168; Frame (u "<module>") (u "abiftool.py") 285] in
  abiflib_stackfunc 1 callers = Ok (u "convert_abif_to_jabmod") /\ abiflib_stackfunc (-1) callers = Ok (u "<module>") /\ abiflib_stackfunc 4 callers = Err IndexError /\
  abiflib_callstackstr 1 (-1) callers = u "convert_abif_to_jabmod < main" /\ abiflib_callstackstr 2 6 callers = u "main < <module>" /\ abiflib_callstackstr 3 2 callers = [].
Proof. vm_compute. repeat split; reflexivity. Qed.
