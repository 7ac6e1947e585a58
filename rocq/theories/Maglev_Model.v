(** Model of the Maglev tables: src/lib/maglevdyn.c and src/lib/maglev.c. *)
From Verif Require Import Base Prime_Model.

(** A store to the shared memory.  The order of stores is the program order of
    the C code; it is what a concurrent reader or a crash can observe. *)
Inductive store :=
| WLookup (c v : Z)   (* lookup[c] = v *)
| WActive (i v : Z).  (* active[i] = v *)

(** struct MagDataDyn (src/lib/maglevdyn.h), a view of the shared memory. *)
Record mag := mkMag {
  mM : Z;                     (* unsigned M *)
  mN : Z;                     (* unsigned N *)
  mlookup : list Z;           (* int lookup[M] *)
  mperm : list (list Z);      (* unsigned permutation[N][M] *)
  mactive : list Z            (* int active[N] *)
}.

(** Stores are collected in reverse order while a function runs. *)

(** maglevdyn.c:78-80: for (i = 0; i < M; i++) lookup[i] = -1. *)
Fixpoint clear_loop (k : nat) (i : Z) (lookup : list Z) (tr : list store)
  : outcome (list Z * list store) :=
  match k with
  | O => Ok (lookup, tr)
  | S k' =>
      do l' <- aset lookup i (-1);
      clear_loop k' (i + 1) l' (WLookup i (-1) :: tr)
  end.

(** maglevdyn.c:83-86: count the active targets. *)
Fixpoint count_active (isact : Z -> bool) (active : list Z) (k : nat) (i n : Z) : outcome Z :=
  match k with
  | O => Ok n
  | S k' =>
      do a <- aget active i;
      count_active isact active k' (i + 1) (if isact a then u32 (n + 1) else n)
  end.

(** maglevdyn.c:97-101: c = row[next]; while (lookup[c] >= 0) {next++; c = row[next];} *)
Fixpoint find_slot (fuel : nat) (lookup row : list Z) (nx : Z) : outcome (Z * Z) :=
  do c <- aget row nx;
  do v <- aget lookup c;
  if v >=? 0 then
    match fuel with
    | O => Fuel
    | S f => find_slot f lookup row (u32 (nx + 1))
    end
  else Ok (c, nx).

Record pst := mkPst {
  p_lookup : list Z;
  p_next : list Z;
  p_n : Z;
  p_trace : list store
}.

(** maglevdyn.c:94-106, one pass over the targets i, i+1, ... (k of them).  The
    boolean tells that the function returned (line 105). *)
Fixpoint round (isact : Z -> bool) (M : Z) (perm : list (list Z)) (active : list Z)
         (k : nat) (i : Z) (st : pst) : outcome (pst * bool) :=
  match k with
  | O => Ok (st, false)
  | S k' =>
      do a <- aget active i;
      if negb (isact a) then round isact M perm active k' (i + 1) st
      else
        do row <- aget perm i;
        do nx <- aget (p_next st) i;
        do p <- find_slot (length row) (p_lookup st) row nx;
        let '(c, nx') := p in
        do l' <- aset (p_lookup st) c i;
        do next' <- aset (p_next st) i (u32 (nx' + 1));
        let st' := mkPst l' next' (u32 (p_n st + 1)) (WLookup c i :: p_trace st) in
        if p_n st' =? M then Ok (st', true)
        else round isact M perm active k' (i + 1) st'
  end.

(** maglevdyn.c:93-107, for (;;). *)
Fixpoint rounds (isact : Z -> bool) (M : Z) (perm : list (list Z)) (active : list Z)
         (N : nat) (fuel : nat) (st : pst) : outcome pst :=
  match fuel with
  | O => Fuel
  | S f =>
      do r <- round isact M perm active N 0 st;
      let '(st', fin) := r in
      if fin : bool then Ok st' else rounds isact M perm active N f st'
  end.

(** maglevdyn.c:76-108 and maglev.c:20-50 (they differ only in the test for an
    active target).  Result: new lookup table and the stores in program order. *)
Definition populate_gen (isact : Z -> bool) (M N : Z) (lookup : list Z)
           (perm : list (list Z)) (active : list Z) : outcome (list Z * list store) :=
  do p <- clear_loop (Z.to_nat M) 0 lookup [];
  let '(l0, tr0) := p in
  do nact <- count_active isact active (Z.to_nat N) 0 0;
  if nact =? 0 then Ok (l0, rev tr0)
  else
    do st <- rounds isact M perm active (Z.to_nat N) (S (Z.to_nat M))
                    (mkPst l0 (repeat 0 (Z.to_nat N)) 0 tr0);
    Ok (p_lookup st, rev (p_trace st)).

(** maglevdyn.c:85,95: active[i] >= 0. *)
Definition dyn_active (a : Z) : bool := 0 <=? a.
(** maglev.c:29,38: active[i] != 0. *)
Definition static_active (a : Z) : bool := negb (a =? 0).

(** maglevdyn.c:76-108. *)
Definition magDataDyn_populate (m : mag) : outcome (mag * list store) :=
  do p <- populate_gen dyn_active (mM m) (mN m) (mlookup m) (mperm m) (mactive m);
  let '(l, tr) := p in
  Ok (mkMag (mM m) (mN m) l (mperm m) (mactive m), tr).

(** maglev.c:20-50; the arrays are MAX_M = 10000 / MAX_N = 100 long, of which the
    first M resp. N elements are used. *)
Definition static_populate (m : mag) : outcome (mag * list store) :=
  do p <- populate_gen static_active (mM m) (mN m) (mlookup m) (mperm m) (mactive m);
  let '(l, tr) := p in
  Ok (mkMag (mM m) (mN m) l (mperm m) (mactive m), tr).

(** maglevdyn.c:41-46 (and maglev.c:11-16): one preference list.  [r1], [r2] are the
    two values returned by rand(); arithmetic is 32-bit unsigned. *)
Definition row_offset (M r1 : Z) : Z := r1 mod M.
Definition row_skip (M r2 : Z) : Z := u32 (r2 mod (M - 1) + 1).
Definition row_entry (M offset skip j : Z) : Z := (u32 (offset + u32 (j * skip))) mod M.
Definition make_row (M r1 r2 : Z) : list Z :=
  map (fun j => row_entry M (row_offset M r1) (row_skip M r2) (Z.of_nat j))
      (seq 0 (Z.to_nat M)).

(** maglevdyn.c:40-48: all rows; [rand k] is the k-th value returned by rand(). *)
Definition make_rows (M N : Z) (rand : nat -> Z) : list (list Z) :=
  map (fun i => make_row M (rand (2 * i)%nat) (rand (2 * i + 1)%nat))
      (seq 0 (Z.to_nat N)).

(** maglevdyn.c:15-22, in 32-bit unsigned / 64-bit size_t arithmetic, truncated to
    unsigned on return.  sizeof(struct MagDataDynInternal) = 12. *)
Definition len_formula (M N : Z) : Z :=
  u32 (12 + 4 * (u32 (3 + u32 (M * N))) + 4 * (u32 (M + N))).
Definition magDataDyn_len (M0 N : Z) : outcome Z :=
  do M <- primeBelow (if M0 <? 3 then 3 else M0);
  Ok (len_formula M N).

(** maglevdyn.c:53-70: byte offsets of the arrays in the memory.  [offset] is a
    32-bit unsigned. *)
Definition lookup_off : Z := 12.
Fixpoint row_offs (k : nat) (M off : Z) : list Z * Z :=
  match k with
  | O => ([], off)
  | S k' => let '(r, e) := row_offs k' M (u32 (off + 4 * M)) in (off :: r, e)
  end.
Definition map_offs (M N : Z) : list Z * Z := row_offs (Z.to_nat N) M (u32 (12 + 4 * M)).

(** The byte ranges (start, length) used: header, lookup, the rows, active. *)
Definition regions (M N : Z) : list (Z * Z) :=
  let '(rows, act) := map_offs M N in
  (0, 12) :: (lookup_off, 4 * M) :: map (fun o => (o, 4 * M)) rows ++ [(act, 4 * N)].

(** Whether the arrays, laid out one after the other, are inside [len] bytes. *)
Definition layout_fits (M N len : Z) : bool := 12 + 4 * M + 4 * M * N + 4 * N <=? len.

(** maglevdyn.c:24-51 on fresh memory of [len] bytes.  (memset to 0, then the rows,
    active = -1, then populate.)  The memory areas are kept as separate arrays.  If the
    memory is too small for them (then the arrays overlap or leave the memory, see
    property C07) the outcome is [UB]. *)
Definition magDataDyn_init (M0 N len : Z) (rand : nat -> Z) : outcome mag :=
  do M <- primeBelow (if M0 <? 3 then 3 else M0);
  do need <- magDataDyn_len M N;
  if len <? need then Die
  else if negb (layout_fits M N len) then UB
  else
    let m := mkMag M N (repeat 0 (Z.to_nat M)) (make_rows M N rand)
                   (repeat (-1) (Z.to_nat N)) in
    do p <- magDataDyn_populate m;
    Ok (fst p).

(** cmdShm.c:34-67 and 22-32 (init command): m and n are the atoi() results
    converted to unsigned. *)
Definition cmdInit (m0 n : Z) (rand : nat -> Z) : outcome mag :=
  do m <- (if m0 <? 3 then Ok 3 else primeBelow m0);
  if n >? m then Die
  else
    do len <- magDataDyn_len m n;
    magDataDyn_init m n len rand.

(** maglev.c:5-18: static tables, m and n unchecked; active all 0. *)
Definition initMagData (m n : Z) (rand : nat -> Z) : mag :=
  mkMag m n (repeat 0 (Z.to_nat m)) (make_rows m n rand) (repeat 0 (Z.to_nat n)).

(** The lookup done for a packet, cmdLb.c:92-97 and cmdFlowLb.c (packetHandleFn):
    fw = lookup[hash % M]; if (fw >= 0) fw = active[fw].  A negative result means no
    target. *)
Definition mag_lookup (m : mag) (hash : Z) : outcome Z :=
  do l <- aget (mlookup m) (hash mod mM m);
  if l >=? 0 then aget (mactive m) l else Ok l.
