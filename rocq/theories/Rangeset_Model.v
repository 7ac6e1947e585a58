(** Sets of integer (port) ranges, src/lib/rangeset.c.

    Nodes live in a heap: a partial map from addresses (0 is NULL) to nodes;
    reading or writing an address that is not allocated (or was freed) is
    [UB].  The C recursions and loops run with fuel; [Fuel] as a result for
    every amount of fuel means that the C code does not return. *)
From Verif Require Import Base Cstr_Model.

(** struct Node, rangeset.c:27-31 *)
Record node := mkN { first : Z; last : Z; left : Z; right : Z }.
Definition heap := Z -> option node.
Definition empty_heap : heap := fun _ => None.

Definition load (h : heap) (p : Z) : outcome node :=
  match h p with Some n => Ok n | None => UB end.
Definition hset (h : heap) (p : Z) (n : option node) : heap :=
  fun q => if q =? p then n else h q.
Definition store (h : heap) (p : Z) (n : node) : outcome heap :=
  match h p with Some _ => Ok (hset h p (Some n)) | None => UB end.
Definition hfree (h : heap) (p : Z) : outcome heap :=
  match h p with Some _ => Ok (hset h p None) | None => UB end.

Definition with_left (n : node) (p : Z) : node := mkN (first n) (last n) p (right n).
Definition with_right (n : node) (p : Z) : node := mkN (first n) (last n) (left n) p.
Definition with_last (n : node) (l : Z) : node := mkN (first n) l (left n) (right n).

(** struct RangeSet, rangeset.c:33-39, with the heap; [next] is the address
    the next calloc() will return (calloc never fails, else die). *)
Record rset := mkRS {
  hp : heap; next : Z;
  count : Z; lowest : Z; highest : Z; root : Z; added : Z }.

(** rangeSetCreate, rangeset.c:41-48 *)
Definition rangeSetCreate : rset := mkRS empty_heap 1 0 0 UINT_MAX 0 0.

(** rangeSetCreateLimited, rangeset.c:49-59; None is NULL *)
Definition rangeSetCreateLimited (lo hi : Z) : option rset :=
  if hi <=? lo then None else Some (mkRS empty_heap 1 0 lo hi 0 0).

(** isInTree, rangeset.c:77-86 *)
Fixpoint isInTree (fuel : nat) (h : heap) (n value : Z) : outcome bool :=
  if n =? 0 then Ok false
  else match fuel with
  | O => Fuel
  | S fuel' =>
      do x <- load h n;
      if value <? first x then isInTree fuel' h (left x) value
      else if last x <? value then isInTree fuel' h (right x) value
      else Ok true
  end.

(** rangeSetIn, rangeset.c:88-91 *)
Definition rangeSetIn (fuel : nat) (t : rset) (value : Z) : outcome bool :=
  isInTree fuel (hp t) (root t) value.

(** rangeSetAdd, rangeset.c:93-111: None is -1 *)
Definition rangeSetAdd (t : rset) (f l : Z) : option rset :=
  if l <? f then None
  else if (0 <? lowest t) && (f <? lowest t) then None
  else if (highest t <? UINT_MAX) && (highest t <? l) then None
  else Some (mkRS (hset (hp t) (next t) (Some (mkN f l (added t) 0))) (next t + 1)
                  (u32 (count t + 1)) (lowest t) (highest t) (root t) (next t)).

(** sscanf %u: blanks, a sign, decimal digits; the value is computed by
    strtoul (64 bits, saturating) and stored into an unsigned. *)
Definition ULONG_MAX : Z := 18446744073709551615.
Definition scanu (s : chars) : option (Z * chars) :=
  let s1 := skip isspace s in
  let (neg, s2) :=
    match s1 with
    | c :: r => if c =? 45 then (true, r) else if c =? 43 then (false, r) else (false, s1)
    | [] => (false, s1)
    end in
  let '(v, n, rest) := digits 10 0 0 s2 in
  if n =? 0 then None
  else Some (if ULONG_MAX <? v then u32 ULONG_MAX else u32 (if neg then - v else v), rest).

(** rangeSetAddOneStr, rangeset.c:113-129.  sscanf("%u-%u") must assign
    both; the text after the last conversion is ignored. *)
Definition rangeSetAddOneStr (t : rset) (tok : chars) : option rset :=
  match split_at 45 tok with
  | Some _ =>
      match scanu tok with
      | None => None
      | Some (f, r) =>
          match r with
          | c :: r' =>
              if c =? 45 then
                match scanu r' with
                | None => None
                | Some (l, _) => if l <? f then None else rangeSetAdd t f l
                end
              else None
          | [] => None
          end
      end
  | None =>
      match scanu tok with
      | None => None
      | Some (f, _) => rangeSetAdd t f f
      end
  end.

(** The loop rangeset.c:134-138 and 146-150: the set keeps what was added
    before a failing token; the boolean tells success (0). *)
Fixpoint addToks (t : rset) (l : list chars) : rset * bool :=
  match l with
  | [] => (t, true)
  | tok :: l' =>
      match rangeSetAddOneStr t tok with
      | None => (t, false)
      | Some t' => addToks t' l'
      end
  end.

(** rangeSetAddStr, rangeset.c:130-140: strndupa takes at most 1024
    characters, strtok splits at commas and blanks. *)
Definition rangeSetAddStr (t : rset) (s : chars) : outcome (rset * bool) :=
  let s' := firstn (Z.to_nat 1024) s in
  do l <- toks (length s') [44; 32] s';
  Ok (addToks t l).

(** rangeSetAddArgv, rangeset.c:142-152 *)
Definition rangeSetAddArgv (t : rset) (argv : list chars) : rset * bool := addToks t argv.

(** rangeSetSize, rangeset.c:154-157 *)
Definition rangeSetSize (t : rset) : Z := count t.

(** insertNode, rangeset.c:159-174 *)
Fixpoint insertNode (fuel : nat) (h : heap) (parent n : Z) : outcome heap :=
  match fuel with
  | O => Fuel
  | S fuel' =>
      do xn <- load h n;
      do xp <- load h parent;
      if first xn <? first xp then
        if left xp =? 0 then
          do h1 <- store h n (mkN (first xn) (last xn) 0 0);
          do xp1 <- load h1 parent;
          store h1 parent (with_left xp1 n)
        else insertNode fuel' h (left xp) n
      else
        if right xp =? 0 then
          do h1 <- store h n (mkN (first xn) (last xn) 0 0);
          do xp1 <- load h1 parent;
          store h1 parent (with_right xp1 n)
        else insertNode fuel' h (right xp) n
  end.

(** storeNodes, rangeset.c:177-186: the nodes of a tree in post-order (the
    array is the list written). *)
Fixpoint storeNodes (fuel : nat) (h : heap) (n : Z) : outcome (list Z) :=
  if n =? 0 then Ok []
  else match fuel with
  | O => Fuel
  | S fuel' =>
      do x <- load h n;
      do a <- storeNodes fuel' h (left x);
      do b <- storeNodes fuel' h (right x);
      Ok (a ++ b ++ [n])
  end.

(** qsort with cmpNodes, rangeset.c:189-198, 234.  The order of elements
    with equal keys is unspecified in C, so [sort] is a parameter of the
    model: it gets the keys (the [first] fields) and the array. *)
Definition sorter := (Z -> Z) -> list Z -> list Z.

(** insertSorted, rangeset.c:201-217; [parent] 0 is NULL.  The recursion is
    on sub-arrays; fuel bounds its depth and that of insertNode. *)
Fixpoint insertSorted (fuel : nat) (h : heap) (parent : Z) (nodes : list Z)
    : outcome (heap * Z) :=
  match nodes with
  | [] => Ok (h, 0)
  | _ =>
      match fuel with
      | O => Fuel
      | S fuel' =>
          let hh := (length nodes / 2)%nat in
          match nth_error nodes hh with
          | None => UB
          | Some n =>
              do h1 <-
                (if parent =? 0 then
                   do x <- load h n; store h n (mkN (first x) (last x) 0 0)
                 else insertNode fuel h parent n);
              do (h2, _) <- insertSorted fuel' h1 n (firstn hh nodes);
              do (h3, _) <- insertSorted fuel' h2 n (skipn (hh + 1) nodes);
              Ok (h3, n)
          end
      end
  end.

(** The merge loop, rangeset.c:237-254.  "Pack the array" deletes the
    element i+1; [n] is nodes[i] and [rest] the elements behind it; the
    result is the heap and the array from i on. *)
Fixpoint merge (h : heap) (n : Z) (rest : list Z) : outcome (heap * list Z) :=
  match rest with
  | [] => Ok (h, [n])
  | nx :: rest' =>
      do x <- load h n;
      do y <- load h nx;
      if (last x =? UINT_MAX) || (first y <=? u32 (last x + 1)) then
        do h1 <- (if last x <? last y then store h n (with_last x (last y)) else Ok h);
        do h2 <- hfree h1 nx;
        merge h2 n rest'
      else
        do (h1, l) <- merge h nx rest';
        Ok (h1, n :: l)
  end.

(** The key of a node as qsort sees it. *)
Definition key_of (h : heap) (p : Z) : Z := match h p with Some x => first x | None => 0 end.

(** rangeSetUpdate, rangeset.c:219-261.  Writing more than t->count nodes
    overflows the array [nodes], fewer leave it uninitialised (the assert at
    230 is compiled out): UB in both cases. *)
Definition rangeSetUpdate (sort : sorter) (fuel : nat) (t : rset) : outcome rset :=
  if count t =? 0 then Ok t
  else
    do a <- storeNodes fuel (hp t) (root t);
    do b <- storeNodes fuel (hp t) (added t);
    let nodes := a ++ b in
    if negb (zlen nodes =? count t) then UB
    else
      match sort (key_of (hp t)) nodes with
      | [] => UB
      | n :: rest =>
          do (h1, l) <- merge (hp t) n rest;
          do (h2, r) <- insertSorted fuel h1 (root t) l;
          Ok (mkRS h2 (next t) (zlen l) (lowest t) (highest t) r 0)
      end.

(** treeFree, rangeset.c:60-67 *)
Fixpoint treeFree (fuel : nat) (h : heap) (n : Z) : outcome heap :=
  if n =? 0 then Ok h
  else match fuel with
  | O => Fuel
  | S fuel' =>
      do x <- load h n;
      do h1 <- treeFree fuel' h (left x);
      do y <- load h1 n;
      do h2 <- treeFree fuel' h1 (right y);
      hfree h2 n
  end.

(** rangeSetDestroy, rangeset.c:68-75 *)
Definition rangeSetDestroy (fuel : nat) (t : rset) : outcome heap :=
  do h <- treeFree fuel (hp t) (root t);
  treeFree fuel h (added t).

(** "%u" *)
Fixpoint dec_aux (fuel : nat) (v : Z) (acc : chars) : chars :=
  match fuel with
  | O => acc
  | S f => let acc' := (48 + v mod 10) :: acc in
           if v <? 10 then acc' else dec_aux f (v / 10) acc'
  end.
Definition dec (v : Z) : chars := dec_aux 10 v [].

(** "%u," or "%u-%u,", rangeset.c:274-277 *)
Definition range_text (f l : Z) : chars :=
  if f =? l then dec f ++ [44] else dec f ++ [45] ++ dec l ++ [44].

(** snprintf(nbuf, len, ..) at offset [pos] of a buffer of [blen] bytes: the
    text is cut to len-1 characters and a 0 is added; writing outside the
    buffer is UB.  [buf] is the buffer contents (0 = end of string). *)
Fixpoint wr (buf : list Z) (pos : Z) (s : list Z) : outcome (list Z) :=
  match s with
  | [] => Ok buf
  | c :: s' => do b <- aset buf pos c; wr b (pos + 1) s'
  end.
Definition snprintf (buf : list Z) (pos len : Z) (s : chars) : outcome (list Z) :=
  wr buf pos (firstn (Z.to_nat (Z.min (len - 1) (zlen s))) s ++ [0]).

(** printTree, rangeset.c:263-279: None is NULL, else the new position. *)
Fixpoint printTree (fuel : nat) (h : heap) (n : Z) (buf : list Z) (pos : Z)
    : outcome (list Z * option Z) :=
  if n =? 0 then Ok (buf, Some pos)
  else match fuel with
  | O => Fuel
  | S fuel' =>
      do x <- load h n;
      do (buf1, p) <- printTree fuel' h (left x) buf pos;
      match p with
      | None => Ok (buf1, None)
      | Some pos1 =>
          let len := u32 (zlen buf - pos1) in
          if len <? 3 then Ok (buf1, None)
          else
            let s := range_text (first x) (last x) in
            do buf2 <- snprintf buf1 pos1 len s;
            printTree fuel' h (right x) buf2 (pos1 + zlen s)
      end
  end.

(** rangeSetString, rangeset.c:281-290: the buffer afterwards and the return
    value. *)
Definition rangeSetString (fuel : nat) (t : rset) (buf : list Z) : outcome (list Z * Z) :=
  if root t =? 0 then do b <- aset buf 0 0; Ok (b, 0)
  else
    do (b, p) <- printTree fuel (hp t) (root t) buf 0;
    match p with None => Ok (b, 1) | Some _ => Ok (b, 0) end.
