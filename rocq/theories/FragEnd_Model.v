(** Model of fragTableDestroy (src/lib/fragutils.c:224-251).

    Simplifications: the pools are numbers of items as in Frag_Model.v, so that
    itemPoolDestroy is what ItemPool_Model.v says for a pool of that size; the assertions
    of SANITY_CHECK (tests only) are left out; the mutexes are left out. *)
From Verif Require Import Base IpKey_Model Conntrack_Model Conntrack_Spec Frag_Model ItemPool_Model.

(** conntrack.c:59-62: tv_sec, tv_nsec and the arithmetic are signed 64-bit numbers.
    [wrap]: signed overflow wraps around (as with -fwrapv); otherwise it is undefined. *)
Definition in_s64 (x : Z) : bool := (- 9223372036854775808 <=? x) && (x <=? 9223372036854775807).
Definition toNanos (wrap : bool) (sec nsec : Z) : outcome Z :=
  if wrap || (in_s64 (sec * 1000000000) && in_s64 (sec * 1000000000 + nsec)) then Ok (u64 (sec * 1000000000 + nsec)) else UB.

(** fragutils.c:227: the largest time_t. *)
Definition MAXTIME : Z := 9223372036854775807.

(** conntrack.c:272-276 and 286-291: one bucket after the other. *)
Fixpoint collect (n : nat) (s : sys) (i now : Z) : outcome (sys * list obs) :=
  match n with
  | O => Ok (s, [])
  | S n =>
      do x <- gc_bucket s i now;
      let '(s1, ob1) := x in
      do y <- collect n s1 (i + 1) now;
      let '(s2, ob2) := y in
      Ok (s2, ob1 ++ ob2)
  end.
Definition collect_all (s : sys) (now : Z) : outcome (sys * list obs) := collect (length (t_buckets (s_ct s))) s 0 now.

(** itempool.c:79-94 for a pool made with [n] items (itempool.c:30-77; with 0 items the field mem is not set). *)
Definition poolDestroy (n size : Z) : outcome unit := itemPoolDestroy (mkPool (mkPstats n size n 0 0) None [] (negb (n =? 0))).

(** sizeof(struct FragData) and of a bucket do not matter. *)
Definition any_size : Z := 64.

(** fragutils.c:229-251; [nsec]: what the field tv_nsec, which is not set, happens to hold. *)
Definition fragTableDestroy (wrap : bool) (g : conf) (s : sys) (nsec : Z) : outcome (sys * list obs) :=
  do now <- toNanos wrap MAXTIME nsec;
  do x <- collect_all s now;
  let '(s1, ob1) := x in
  do y <- collect_all s1 UINT64_MAX;
  let '(s2, ob2) := y in
  do _ <- poolDestroy (u32 (g_hsize g + g_maxBuckets g)) any_size;
  do _ <- poolDestroy (g_maxFragments g) (g_mtu g);
  do _ <- poolDestroy (g_maxBuckets g) any_size;
  Ok (s2, ob1 ++ ob2).
