(** C29-C32, C60: range sets. *)
From Coq Require Import String Permutation Sorted.
From Verif Require Import Base Lists Cstr_Model Util_Spec
  Rangeset_Model Rangeset_Spec Rangeset_Proofs Rangeset2_Proofs.

(** ** C29 *)

(** Whatever is added to a new set, after the update rangeSetIn finds v iff
    one of the added ranges that are within the limits contains v.  [fuel] only
    bounds the recursion of the model; any number not below the number of
    ranges will do. *)
Theorem C29_union_exact :
  forall sort fuel t0 lo hi l,
  qsort_ok sort -> created t0 lo hi -> Forall range_u32 l -> zlen l <= UINT_MAX ->
  (length l <= fuel)%nat ->
  exists t, rangeSetUpdate sort fuel (add_all t0 l) = Ok t /\
    forall v, exists b, rangeSetIn fuel t v = Ok b /\
      (b = true <-> exists f e, In (f, e) l /\ acceptable lo hi (f, e) /\ f <= v <= e).
Proof. exact union_exact. Qed.
Print Assumptions C29_union_exact.

(** A range is refused iff it is inverted or outside the limits. *)
Theorem C29_refused :
  forall t lo hi l f e,
  created t lo hi -> Forall range_u32 l -> range_u32 (f, e) -> zlen l <= UINT_MAX ->
  (rangeSetAdd (add_all t l) f e = None <-> ~ acceptable lo hi (f, e)).
Proof. exact add_refused. Qed.
Print Assumptions C29_refused.

Example C29_ex :
  qsort_ok isort /\
  (exists t0, created t0 1 65535 /\ rangeSetAdd t0 0 5 = None /\ rangeSetAdd t0 9 8 = None) /\
  let l := [(30, 40); (1, 5); (35, 50); (6, 9); (7, 7)] in
  Forall range_u32 l /\
  match rangeSetUpdate isort 5 (add_all rangeSetCreate l) with
  | Ok t => map (fun v => rangeSetIn 5 t v) [0; 1; 9; 10; 29; 30; 50; 51] =
            [Ok false; Ok true; Ok true; Ok false; Ok false; Ok true; Ok true; Ok false]
            /\ rangeSetSize t = 2
  | _ => False
  end.
Proof.
  split; [exact isort_ok|]. split.
  - eexists. split; [right; split; [reflexivity|]|split; reflexivity]; unfold is_u32, UINT_MAX; lia.
  - split; [|vm_compute; auto]. repeat constructor; cbn; unfold UINT_MAX; lia.
Qed.

(** ** C30 *)

(** The ranges in the updated tree are in order, disjoint and not adjacent,
    there are rangeSetSize of them, they cover what was added, and a search
    goes at most log2(n)+1 deep. *)
Theorem C30_canonical_and_shallow :
  forall sort fuel t0 lo hi l,
  qsort_ok sort -> created t0 lo hi -> Forall range_u32 l -> zlen l <= UINT_MAX ->
  (length l <= fuel)%nat ->
  exists t rs, rangeSetUpdate sort fuel (add_all t0 l) = Ok t /\
    inorder fuel (hp t) (root t) = Ok rs /\ canonical rs /\ zlen rs = rangeSetSize t /\
    (forall v, covered rs v <-> exists f e, In (f, e) l /\ acceptable lo hi (f, e) /\ f <= v <= e) /\
    forall v, exists b, rangeSetIn (Nat.log2 (length rs) + 1) t v = Ok b.
Proof. exact shape. Qed.
Print Assumptions C30_canonical_and_shallow.

(** So the number of ranges does not depend on how the set was written down. *)
Theorem C30_canonical_unique :
  forall l l', canonical l -> canonical l' ->
  (forall v, covered l v <-> covered l' v) -> l = l'.
Proof. exact canonical_unique. Qed.
Print Assumptions C30_canonical_unique.

Example C30_ex :
  match rangeSetUpdate isort 5 (add_all rangeSetCreate [(5, 9); (1, 4); (20, 20); (12, 18); (14, 15)]) with
  | Ok t => inorder 5 (hp t) (root t) = Ok [(1, 9); (12, 18); (20, 20)] /\ rangeSetSize t = 3
            /\ rangeSetIn (Nat.log2 3 + 1) t 20 = Ok true
  | _ => False
  end.
Proof. vm_compute. auto. Qed.

(** ** C31 *)

(** What does hold: one update.  Adding before it and after it is safe, the
    set can be destroyed at any time and then nothing is left allocated, and
    until the next update the set contains what was added before the update.
    Missing: anything after a second update, see the refutations. *)
Theorem C31_one_update_partial :
  forall sort fuel t0 lo hi l l2,
  qsort_ok sort -> created t0 lo hi -> Forall range_u32 l -> Forall range_u32 l2 ->
  zlen l + zlen l2 <= UINT_MAX -> (length l + length l2 <= fuel)%nat ->
  (exists h, rangeSetDestroy fuel (add_all t0 l) = Ok h /\ forall q, h q = None) /\
  exists t, rangeSetUpdate sort fuel (add_all t0 l) = Ok t /\
    (exists h, rangeSetDestroy fuel (add_all t l2) = Ok h /\ forall q, h q = None) /\
    forall v, exists b, rangeSetIn fuel (add_all t l2) v = Ok b /\
      (b = true <-> exists f e, In (f, e) l /\ acceptable lo hi (f, e) /\ f <= v <= e).
Proof. exact once_updated. Qed.
Print Assumptions C31_one_update_partial.

(** Updating a set with a range f-e a second time makes its node a child of
    itself: asking for any v above e never returns, and the set cannot be
    destroyed.  (rangeSetUpdate rebuilds below the old root node.) *)
Theorem C31_second_update_refuted :
  forall sort fuel f e,
  qsort_ok sort -> 0 <= f <= e -> e <= UINT_MAX -> (2 <= fuel)%nat ->
  exists t1 t2, rangeSetUpdate sort fuel (add_all rangeSetCreate [(f, e)]) = Ok t1 /\
    rangeSetUpdate sort fuel t1 = Ok t2 /\
    (forall v n, e < v -> rangeSetIn n t2 v = Fuel) /\ forall n, rangeSetDestroy n t2 = Fuel.
Proof. exact twice_loops. Qed.
Print Assumptions C31_second_update_refuted.

(** Adding a range that starts below the first one and joins it frees the old
    root node, which the second update then uses. *)
Theorem C31_use_after_free_refuted :
  forall sort fuel f e f' e',
  qsort_ok sort -> 0 <= f <= e -> e <= UINT_MAX -> 0 <= f' -> e' <= UINT_MAX ->
  f' < f -> f <= e' + 1 -> f' <= e' -> (2 <= fuel)%nat ->
  exists t1, rangeSetUpdate sort fuel (add_all rangeSetCreate [(f, e)]) = Ok t1 /\
    rangeSetUpdate sort fuel (add_all t1 [(f', e')]) = UB.
Proof. exact swallow_uaf. Qed.
Print Assumptions C31_use_after_free_refuted.

Example C31_ex : qsort_ok isort /\
  match rangeSetUpdate isort 9 (add_all rangeSetCreate [(5, 5)]) with
  | Ok t1 => rangeSetIn 9 t1 6 = Ok false /\ rangeSetUpdate isort 9 (add_all t1 [(3, 7)]) = UB /\
             match rangeSetUpdate isort 9 t1 with
             | Ok t2 => rangeSetIn 9 t2 5 = Ok true /\ rangeSetIn 9 t2 6 = Fuel
             | _ => False
             end
  | _ => False
  end.
Proof. split; [exact isort_ok|]. vm_compute. auto. Qed.

(** ** C32 *)

(** What does hold: if the text fits (with its end mark), exactly the text and
    the end mark are written and 0 is returned.
    Missing: buffers that are too short, see the refutations. *)
Theorem C32_text_fits_partial :
  forall sort fuel t0 lo hi l buf,
  qsort_ok sort -> created t0 lo hi -> Forall range_u32 l -> zlen l <= UINT_MAX ->
  (length l <= fuel)%nat ->
  exists t rs s, rangeSetUpdate sort fuel (add_all t0 l) = Ok t /\
    inorder fuel (hp t) (root t) = Ok rs /\ is_list_text s rs /\
    (zlen s < zlen buf <= UINT_MAX ->
     rangeSetString fuel t buf = Ok (s ++ 0 :: skipn (S (length s)) buf, 0)).
Proof. exact string_ok. Qed.
Print Assumptions C32_text_fits_partial.

(** The set {10-99, 200} printed into 4 bytes writes outside the buffer. *)
Theorem C32_overflow_refuted :
  exists t, rangeSetUpdate isort 2 (add_all rangeSetCreate [(10, 99); (200, 200)]) = Ok t /\
    rangeSetString 2 t [7; 7; 7; 7] = UB.
Proof. exact string_overflow. Qed.
Print Assumptions C32_overflow_refuted.

(** The set {1-100} printed into 4 bytes is reported as printed, as "1-1". *)
Theorem C32_cut_text_refuted :
  exists t, rangeSetUpdate isort 1 (add_all rangeSetCreate [(1, 100)]) = Ok t /\
    rangeSetString 1 t [7; 7; 7; 7] = Ok (str "1-1" ++ [0], 0).
Proof. exact string_cut. Qed.
Print Assumptions C32_cut_text_refuted.

Example C32_ex :
  match rangeSetUpdate isort 3 (add_all rangeSetCreate [(443, 443); (80, 81); (8000, 8080)]) with
  | Ok t => rangeSetString 3 t (repeat 7 24) = Ok (str "80-81,443,8000-8080," ++ [0; 7; 7; 7], 0)
  | _ => False
  end.
Proof. vm_compute. auto. Qed.

(** ** C60: port lists are read completely *)

(** Text listing ranges within the limits adds just these ranges, for texts of
    up to 1024 characters.  Missing: longer texts, see the refutation. *)
Theorem C60_list_read_partial :
  forall t lo hi s l,
  created t lo hi -> is_list_text s l -> Forall range_u32 l -> Forall (acceptable lo hi) l ->
  zlen s <= 1024 -> rangeSetAddStr t s = Ok (add_all t l, true).
Proof. exact addStr_ok. Qed.
Print Assumptions C60_list_read_partial.

(** A longer list is cut after 1024 characters and success is reported: here
    port 22222 is listed, but port 2222 is added in its place. *)
Theorem C60_long_list_refuted :
  exists s l t, is_list_text s l /\ Forall (acceptable 1 65535) l /\ In (22222, 22222) l /\
    ~ covered l 2222 /\
    rangeSetAddStr rangeSetCreate s = Ok (t, true) /\
    exists u, rangeSetUpdate isort 300 t = Ok u /\
      rangeSetIn 300 u 22222 = Ok false /\ rangeSetIn 300 u 2222 = Ok true.
Proof. exact addStr_cut. Qed.
Print Assumptions C60_long_list_refuted.

Example C60_ex :
  is_list_text (str "80,8000-8080,") [(80, 80); (8000, 8080)] /\
  Forall (acceptable 1 65535) [(80, 80); (8000, 8080)].
Proof.
  split.
  - exists [str "80,"; str "8000-8080,"]. split; [reflexivity|].
    repeat constructor.
    + exists (str "80"). split; [|left; auto].
      unfold is_dec. cbn. repeat split; try congruence. repeat constructor; lia.
    + exists (str "8000"). split; [unfold is_dec; cbn; repeat split; try congruence; repeat constructor; lia|].
      right. split; [cbn; lia|]. exists (str "8080"). split; [|reflexivity].
      unfold is_dec. cbn. repeat split; try congruence. repeat constructor; lia.
  - repeat constructor; cbn; lia.
Qed.
