(** Model of src/lib/itempool.c: pools of fixed-size items.

    An item is represented by its index in the pool's memory block; NULL is [None].
    The [next] fields are an array, [free] the head of the free list.  Each of
    itemAllocate, itemFree and itemPoolClearStats runs under the pool's mutex, so an
    execution of many threads is a sequence of these.  Left out: the user's init and
    destroy functions and the items' data. *)
From Verif Require Import Base Lists.

(** itempool.h:24-30. *)
Record pstats := mkPstats { st_size : Z; st_itemSize : Z; st_nFree : Z; st_nAlloc : Z; st_nRejected : Z }.
(** itempool.c:23-28; [p_mem]: [false] while the field [mem] is not initialised. *)
Record pool := mkPool { p_stats : pstats; p_free : option Z; p_next : list (option Z); p_mem : bool }.

(** sizeof(struct Item), itempool.h:22-27, with 64-bit pointers. *)
Definition item_hdr : Z := 24.

(** itempool.c:54-62: item i's header is written at byte i*real of a block of [block]
    bytes; a write outside the block is UB. *)
Fixpoint init_loop (n : nat) (i real block : Z) (free : option Z) (nxt : list (option Z))
  : outcome (option Z * list (option Z)) :=
  match n with
  | O => Ok (free, nxt)
  | S n =>
      if block <? i * real + item_hdr then UB
      else init_loop n (i + 1) real block (Some i) (nxt ++ [free])
  end.

(** itempool.c:30-77; [malloc_ok]: whether the second malloc succeeds; result [None]: NULL. *)
Definition itemPoolCreate (maxItems itemSize : Z) (malloc_ok : bool) : outcome (option pool) :=
  if maxItems =? 0 then Ok (Some (mkPool (mkPstats 0 itemSize 0 0 0) None [] false))
  else
    let real := u32 (item_hdr + itemSize) in
    if negb malloc_ok then Ok None
    else
      do r <- init_loop (Z.to_nat maxItems) 0 real (u32 (maxItems * real)) None [];
      let '(free, nxt) := r in
      Ok (Some (mkPool (mkPstats maxItems itemSize maxItems 0 0) free nxt true)).

(** itempool.c:79-94: free(pool->mem) of an uninitialised pointer is UB. *)
Definition itemPoolDestroy (p : pool) : outcome unit := if p_mem p then Ok tt else UB.

(** itempool.c:101-107. *)
Definition itemPoolClearStats (p : pool) : pool :=
  let s := p_stats p in
  mkPool (mkPstats (st_size s) (st_itemSize s) (st_nFree s) 0 0) (p_free p) (p_next p) (p_mem p).

(** itempool.c:110-124. *)
Definition itemAllocate (p : pool) : outcome (pool * option Z) :=
  let s := p_stats p in
  match p_free p with
  | Some f =>
      do n <- aget (p_next p) f;
      do nx <- aset (p_next p) f None;
      Ok (mkPool (mkPstats (st_size s) (st_itemSize s) (u32 (st_nFree s - 1)) (u32 (st_nAlloc s + 1)) (st_nRejected s))
                 n nx (p_mem p), Some f)
  | None =>
      Ok (mkPool (mkPstats (st_size s) (st_itemSize s) (st_nFree s) (u32 (st_nAlloc s + 1)) (u32 (st_nRejected s + 1)))
                 None (p_next p) (p_mem p), None)
  end.

(** itempool.c:132-138. *)
Fixpoint free_loop (fuel : nat) (items free : option Z) (nxt : list (option Z)) (nFree : Z)
  : outcome (option Z * list (option Z) * Z) :=
  match items with
  | None => Ok (free, nxt, nFree)
  | Some f =>
      match fuel with
      | O => Fuel
      | S fuel =>
          do n <- aget nxt f;
          do nxt' <- aset nxt f free;
          free_loop fuel n (Some f) nxt' (u32 (nFree + 1))
      end
  end.
(** itempool.c:126-140. *)
Definition itemFree (p : pool) (items : option Z) : outcome pool :=
  match items with
  | None => Ok p
  | Some _ =>
      let s := p_stats p in
      do r <- free_loop (S (length (p_next p))) items (p_free p) (p_next p) (st_nFree s);
      let '(free, nxt, nf) := r in
      Ok (mkPool (mkPstats (st_size s) (st_itemSize s) nf (st_nAlloc s) (st_nRejected s)) free nxt (p_mem p))
  end.

(** A client's assignment item->next = next (itempool.c:147). *)
Definition setNext (p : pool) (i : Z) (n : option Z) : outcome pool :=
  do nx <- aset (p_next p) i n;
  Ok (mkPool (p_stats p) (p_free p) nx (p_mem p)).

(** itempool.c:142-151. *)
Definition itemAllocateWithNext (p : pool) (next : option Z) : outcome (pool * option Z) :=
  do r <- itemAllocate p;
  let '(p1, item) := r in
  match item with
  | Some i => do p2 <- setNext p1 i next; Ok (p2, Some i)
  | None => do p2 <- itemFree p1 next; Ok (p2, None)
  end.

(** What threads do to a pool, one at a time. *)
Inductive pop :=
| PAlloc
| PFree (items : option Z)
| PSetNext (i : Z) (n : option Z)
| PAllocNext (next : option Z)
| PClear.
Definition pstep (p : pool) (o : pop) : outcome (pool * option Z) :=
  match o with
  | PAlloc => itemAllocate p
  | PFree i => do p' <- itemFree p i; Ok (p', None)
  | PSetNext i n => do p' <- setNext p i n; Ok (p', None)
  | PAllocNext n => itemAllocateWithNext p n
  | PClear => Ok (itemPoolClearStats p, None)
  end.
