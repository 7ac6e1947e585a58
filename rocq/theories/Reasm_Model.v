(** Model of src/lib/reassembler.c: the book-keeping of received fragments.

    An item of the hole pool is represented by its data, a hole descriptor,
    which is None while nothing was ever written to it; the linked lists (the
    free list of the pool, LIFO as in itempool.c, and the list of a tracker)
    are Coq lists.  That items are not shared between lists is what
    ItemPool_Props proves (C26).  The trace output is left out. *)
From Verif Require Import Base IpKey_Model.

(** struct hole, reassembler.c:37-40 *)
Notation hole := (Z * Z)%type.
Notation item := (option hole).
Notation pool := (list item).

(** INFINITY, reassembler.c:36 *)
Definition INF : Z := UINT_MAX.

(** A tracker: the data of the head item (never used), and the items behind it *)
Record tracker := mkT { t_head : item; t_holes : list item }.

(** raNew, reassembler.c:48-62.  itemAllocateWithNext (itempool.c:142-151)
    frees the item it should link to if there is no second one. *)
Definition raNew (p : pool) : option tracker * pool :=
  match p with
  | [] => (None, [])
  | [_] => (None, [Some (0, INF)])
  | _ :: d :: p' => (Some (mkT d [Some (0, INF)]), p')
  end.

(** raDestoy, reassembler.c:64-70: itemFree (itempool.c:126-140) pushes the
    items in the order of the list. *)
Definition raDestroy (t : tracker) (p : pool) : pool := rev (t_head t :: t_holes t) ++ p.

(** The loop of handleFragment, reassembler.c:225-284.  [holes] are the items
    behind [item], [del] is itemDeleted at step 1, after which [item] is
    dealt with: the result is what remains of [holes].  Using a descriptor that
    was never written is UB, and so is newItem->next when there is no item. *)
Fixpoint scan (fuel : nat) (first last : Z) (more del : bool) (holes : list item) (p : pool)
    : outcome (list item * pool) :=
  match fuel with
  | O => Fuel
  | S fuel =>
      match holes with
      | [] => Ok ([], p)
      | None :: _ => UB
      | Some (hf, hl) :: rest =>
          if (hl <? first) || (last <? hf) then
            (* steps 2, 3; itemDeleted is not reset *)
            if del then scan fuel first last more del rest (Some (hf, hl) :: p)
            else do (l, p') <- scan fuel first last more del rest p; Ok (Some (hf, hl) :: l, p')
          else
            (* steps 4, 5 *)
            let del5 := negb (hf <? first) in
            let cur := if hf <? first then (hf, u32 (first - 1)) else (hf, hl) in
            (* step 6 *)
            if (last <? hl) && more then
              let cur' := (u32 (last + 1), hl) in
              if negb del5 then
                match p with
                | [] => UB
                | new :: p' =>
                    do (l, p'') <- scan fuel first last more false (new :: rest) p';
                    Ok (Some cur' :: l, p'')
                end
              else do (l, p') <- scan fuel first last more false rest p; Ok (Some cur' :: l, p')
            else if del5 then scan fuel first last more true rest (Some cur :: p)
            else do (l, p') <- scan fuel first last more false rest p; Ok (Some cur :: l, p')
      end
  end.

(** handleFragment, reassembler.c:213-287.  The measure: an item is kept,
    deleted or, with one item of the pool, split. *)
Definition handleFragment (t : tracker) (first len : Z) (more : bool) (p : pool) : outcome (Z * tracker * pool) :=
  if len =? 0 then Ok (1, t, p)
  else
    let last := u32 (u32 (first + len) - 1) in
    do (l, p') <- scan (S (2 * length (t_holes t) + length p)) first last more false (t_holes t) p;
    Ok (match l with [] => 0 | _ => 1 end, mkT (t_head t) l, p').

(** The loop reassembler.c:97-105 and the rest of the case for IPv6 *)
Fixpoint ra6 (fuel : nat) (t : tracker) (data : list Z) (htype hdr : Z) (p : pool) : outcome (Z * tracker * pool) :=
  match fuel with
  | O => Fuel
  | S fuel =>
      if is_ext htype && negb (htype =? 44) then
        if negb (in_bounds hdr 2 (zlen data)) then Ok (-1, t, p)
        else
          do n <- aget data hdr;
          do l <- aget data (hdr + 1);
          if l =? 0 then Ok (-1, t, p) else ra6 fuel t data n (hdr + l * 8) p
      else if htype =? 44 then
        if negb (in_bounds hdr 8 (zlen data)) then Ok (-1, t, p)
        else
          do w <- rdn data (hdr + 2) 2;
          let off := be16 w in
          handleFragment t (Z.land off 65528) (u32 (zlen data - hdr - 8)) (negb (Z.land off 1 =? 0)) p
      else Ok (1, t, p)
  end.

(** raHandleFragment, reassembler.c:72-123; r is not NULL *)
Definition raHandleFragment (t : tracker) (data : list Z) (p : pool) : outcome (Z * tracker * pool) :=
  do b <- aget data 0;
  if Z.land b 240 =? 64 then
    if negb (in_bounds 0 20 (zlen data)) then Ok (-1, t, p)
    else
      do tl <- rdn data 2 2;
      if negb (zlen data =? be16 tl) then Ok (-1, t, p)
      else
        do fo <- rdn data 6 2;
        let off := be16 fo in
        handleFragment t (Z.land off 8191 * 8) (u32 (zlen data - 4 * Z.land b 15)) (negb (Z.land off 8192 =? 0)) p
  else if Z.land b 240 =? 96 then
    do nxt <- aget data 6;
    ra6 (S (length data)) t data nxt 40 p
  else Ok (1, t, p).

(** createReassembler, reassembler.c:125-132: nothing was written to the items. *)
Definition createReassembler (size : nat) : pool := repeat None size.
