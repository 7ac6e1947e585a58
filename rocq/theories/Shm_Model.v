(** Model of the shared memory of the tables: src/lib/shmem.c, the init and show
    commands of src/nfqlb/cmdShm.c, and the code of maglevdyn.c and cmdConfig.c once
    more, now on the bytes of the mapped file.  The file begins with struct SharedData
    (nfqueue.h:4-7): int ownFwmark, then mem[].  All accesses are aligned words of
    4 bytes, little endian.  An access outside of the file is [UB] (in practice
    SIGBUS). *)
From Coq Require Import String.
From Verif Require Import Base Cstr_Model Rangeset_Model Maglev_Model Config_Model.

(** ** Words in memory *)
Definition le4 (v : Z) : list Z := [v mod 256; v / 256 mod 256; v / 65536 mod 256; v / 16777216 mod 256].
(** Load of an unsigned, of an int *)
Definition ld (d : list Z) (o : Z) : outcome Z :=
  if o <? 0 then UB else
  match skipn (Z.to_nat o) d with
  | b0 :: b1 :: b2 :: b3 :: _ => Ok (b0 + 256 * b1 + 65536 * b2 + 16777216 * b3)
  | _ => UB
  end.
Definition lds (d : list Z) (o : Z) : outcome Z := omap s32 (ld d o).
Definition st (d : list Z) (o v : Z) : outcome (list Z) :=
  if (o <? 0) || (zlen d <? o + 4) then UB
  else Ok (firstn (Z.to_nat o) d ++ le4 v ++ skipn (Z.to_nat (o + 4)) d).

(** ** magDataDyn_map, maglevdyn.c:53-70.  The offsets are from the start of the file;
    mem[] starts at 4. *)
Record view := mkView { v_M : Z; v_N : Z; v_look : Z; v_rows : list Z; v_act : Z }.
Definition base : Z := 4.
Definition view_of (M N : Z) : view :=
  let '(rows, act) := map_offs M N in mkView M N (base + lookup_off) (map (Z.add base) rows) (base + act).
Definition map_view (d : list Z) : outcome view :=
  do M <- ld d base;
  do N <- ld d (base + 4);
  Ok (view_of M N).

(** lookup[i], active[i] *)
Definition lk (v : view) (i : Z) : Z := v_look v + 4 * i.
Definition ac (v : view) (i : Z) : Z := v_act v + 4 * i.

(** Stores are collected in reverse order while a function runs, as (offset, value). *)
Definition stores := list (Z * Z).

(** ** magDataDyn_populate, maglevdyn.c:76-108; as in Maglev_Model *)
Fixpoint wclear (v : view) (k : nat) (i : Z) (d : list Z) (tr : stores) : outcome (list Z * stores) :=
  match k with
  | O => Ok (d, tr)
  | S k' => do d' <- st d (lk v i) (-1); wclear v k' (i + 1) d' ((lk v i, -1) :: tr)
  end.
Fixpoint wcount (v : view) (d : list Z) (k : nat) (i n : Z) : outcome Z :=
  match k with
  | O => Ok n
  | S k' => do a <- lds d (ac v i); wcount v d k' (i + 1) (if 0 <=? a then u32 (n + 1) else n)
  end.
Fixpoint wfind (v : view) (fuel : nat) (d : list Z) (row nx : Z) : outcome (Z * Z) :=
  do c <- ld d (row + 4 * nx);
  do l <- lds d (lk v c);
  if l >=? 0 then match fuel with O => Fuel | S f => wfind v f d row (u32 (nx + 1)) end
  else Ok (c, nx).
Record wst := mkWst { w_d : list Z; w_next : list Z; w_n : Z; w_tr : stores }.
Fixpoint wround (v : view) (k : nat) (i : Z) (s : wst) : outcome (wst * bool) :=
  match k with
  | O => Ok (s, false)
  | S k' =>
      do a <- lds (w_d s) (ac v i);
      if negb (0 <=? a) then wround v k' (i + 1) s
      else
        do row <- aget (v_rows v) i;
        do nx <- aget (w_next s) i;
        do p <- wfind v (Z.to_nat (v_M v)) (w_d s) row nx;
        let '(c, nx') := p in
        do d' <- st (w_d s) (lk v c) i;
        do next' <- aset (w_next s) i (u32 (nx' + 1));
        let s' := mkWst d' next' (u32 (w_n s + 1)) ((lk v c, i) :: w_tr s) in
        if w_n s' =? v_M v then Ok (s', true) else wround v k' (i + 1) s'
  end.
Fixpoint wrounds (v : view) (fuel : nat) (s : wst) : outcome wst :=
  match fuel with
  | O => Fuel
  | S f =>
      do r <- wround v (Z.to_nat (v_N v)) 0 s;
      let '(s', fin) := r in
      if fin : bool then Ok s' else wrounds v f s'
  end.
Definition wpopulate (v : view) (d : list Z) : outcome (list Z * stores) :=
  do p <- wclear v (Z.to_nat (v_M v)) 0 d [];
  let '(d0, tr0) := p in
  do nact <- wcount v d0 (Z.to_nat (v_N v)) 0 0;
  if nact =? 0 then Ok (d0, rev tr0)
  else
    do s <- wrounds v (S (Z.to_nat (v_M v))) (mkWst d0 (repeat 0 (Z.to_nat (v_N v))) 0 tr0);
    Ok (w_d s, rev (w_tr s)).

(** ** magDataDyn_init, maglevdyn.c:24-51 *)
(** maglevdyn.c:33: memset(mem, 0, len) *)
Definition wzero (d : list Z) (len : Z) : outcome (list Z) :=
  if zlen d <? base + len then UB
  else Ok (firstn (Z.to_nat base) d ++ repeat 0 (Z.to_nat len) ++ skipn (Z.to_nat (base + len)) d).
(** maglevdyn.c:44-46 *)
Fixpoint wrow (M offset skip row : Z) (k : nat) (j : Z) (d : list Z) : outcome (list Z) :=
  match k with
  | O => Ok d
  | S k' => do d' <- st d (row + 4 * j) (row_entry M offset skip j); wrow M offset skip row k' (j + 1) d'
  end.
(** maglevdyn.c:40-48; target i takes the numbers rand (2i) and rand (2i+1) *)
Fixpoint wrows (v : view) (rand : nat -> Z) (k : nat) (i : nat) (d : list Z) : outcome (list Z) :=
  match k with
  | O => Ok d
  | S k' =>
      do row <- aget (v_rows v) (Z.of_nat i);
      do d1 <- wrow (v_M v) (row_offset (v_M v) (rand (2 * i)%nat)) (row_skip (v_M v) (rand (2 * i + 1)%nat)) row (Z.to_nat (v_M v)) 0 d;
      do d2 <- st d1 (ac v (Z.of_nat i)) (-1);
      wrows v rand k' (S i) d2
  end.
Definition winit (M0 N len : Z) (rand : nat -> Z) (d : list Z) : outcome (list Z) :=
  do M <- Prime_Model.primeBelow (if M0 <? 3 then 3 else M0);
  do need <- magDataDyn_len M N;
  if len <? need then Die
  else
    do d0 <- wzero d len;
    do d1 <- st d0 base M;
    do d2 <- st d1 (base + 4) N;
    do d3 <- st d2 (base + 8) len;
    do v <- map_view d3;
    do d4 <- wrows v rand (Z.to_nat (v_N v)) 0 d3;
    do p <- wpopulate v d4;
    Ok (fst p).

(** ** shmem.c *)
(** What write(2) does: takes n bytes, fails with EINTR or EAGAIN, fails *)
Inductive wres := Wrote (n : Z) | Again | Failed.
(** shmem.c:17-36, given the results of the calls of write; the contents of the file
    and whether all was written *)
Fixpoint write_full (rs : list wres) (buf out : list Z) : outcome (list Z * bool) :=
  match buf with
  | [] => Ok (out, true)
  | _ :: _ =>
      match rs with
      | [] => Fuel
      | Wrote n :: rs' => write_full rs' (skipn (Z.to_nat n) buf) (out ++ firstn (Z.to_nat n) buf)
      | Again :: rs' => write_full rs' buf out
      | Failed :: _ => Ok (out, false)
      end
  end.
(** shmem.c:38-47: the file, truncated when opened, and the result.  [int c] is
    compared with a size_t. *)
Definition createSharedData (rs : list wres) (data : list Z) : outcome (list Z * Z) :=
  do p <- write_full rs data [];
  let '(file, all) := p in
  let c := if all : bool then s32 (zlen data) else -1 in
  if u64 c =? zlen data then Ok (file, 0) else Ok (file, c).

(** cmdShm.c:22-33; [garbage] is what malloc returned behind the first word.  Result:
    the file, and whether the command ended well (false: it died). *)
Definition initShm (own m n : Z) (garbage : list Z) (rs : list wres) (rand : nat -> Z) : outcome (list Z * bool) :=
  do len <- magDataDyn_len m n;
  do p <- createSharedData rs (le4 own ++ firstn (Z.to_nat len) garbage);
  let '(file, ret) := p in
  if negb (ret =? 0) then Ok (file, false)
  else do file' <- winit m n len rand file; Ok (file', true).
(** cmdShm.c:35-67 *)
Definition winitCmd (own m0 n : Z) (garbage : list Z) (rs : list wres) (rand : nat -> Z) : outcome (list Z * bool) :=
  do m <- (if m0 <? 3 then Ok 3 else Prime_Model.primeBelow m0);
  if n >? m then Die else initShm own m n garbage rs rand.

(** ** cmdConfig.c on the file *)
Fixpoint wscan (v : view) (d : list Z) (fw : Z) (k : nat) (i fe : Z) : outcome (bool * Z) :=
  match k with
  | O => Ok (false, fe)
  | S k' =>
      do a <- lds d (ac v i);
      let fe' := if (fe <? 0) && (a <? 0) then i else fe in
      if a =? fw then Ok (true, fe') else wscan v d fw k' (i + 1) fe'
  end.
Fixpoint wactivate (v : view) (d : list Z) (fws : list Z) (changed : bool) : outcome (list Z * bool * stores) :=
  match fws with
  | [] => Ok (d, changed, [])
  | fw :: rest =>
      do p <- wscan v d fw (Z.to_nat (v_N v)) 0 (-1);
      let '(found, fe) := p in
      if negb found && (0 <=? fe) then
        do d' <- st d (ac v fe) fw;
        do q <- wactivate v d' rest true;
        let '(d'', ch, tr) := q in Ok (d'', ch, (ac v fe, fw) :: tr)
      else wactivate v d rest changed
  end.
Fixpoint wscan_eq (v : view) (d : list Z) (fw : Z) (k : nat) (i : Z) : outcome Z :=
  match k with
  | O => Ok (-1)
  | S k' => do a <- lds d (ac v i); if a =? fw then Ok i else wscan_eq v d fw k' (i + 1)
  end.
Fixpoint wdeactivate (v : view) (d : list Z) (fws : list Z) (changed : bool) : outcome (list Z * bool * stores) :=
  match fws with
  | [] => Ok (d, changed, [])
  | fw :: rest =>
      do i <- wscan_eq v d fw (Z.to_nat (v_N v)) 0;
      if 0 <=? i then
        do d' <- st d (ac v i) (-1);
        do q <- wdeactivate v d' rest true;
        let '(d'', ch, tr) := q in Ok (d'', ch, (ac v i, -1) :: tr)
      else wdeactivate v d rest changed
  end.
Definition wfinish (v : view) (d : list Z) (changed : bool) (tr : stores) : outcome (list Z * stores) :=
  if changed then do p <- wpopulate v d; let '(d', tr') := p in Ok (d', tr ++ tr') else Ok (d, tr).
(** cmdActivate (cmdConfig.c:15-72), cmdDeactivate (74-121), from the mapping on *)
Definition wrun (d : list Z) (c : cmd) : outcome (list Z * stores) :=
  do v <- map_view d;
  match c with
  | Activate fws =>
      do p <- wactivate v d fws false;
      let '(d', ch, tr) := p in wfinish v d' ch tr
  | ActivateIdx i fw =>
      if u32 i >=? v_N v then Die
      else
        do a <- lds d (ac v i);
        if a =? fw then Ok (d, []) else do d' <- st d (ac v i) fw; wfinish v d' true [(ac v i, fw)]
  | Deactivate fws =>
      do p <- wdeactivate v d fws false;
      let '(d', ch, tr) := p in wfinish v d' ch tr
  | DeactivateIdx i =>
      if u32 i >=? v_N v then Die
      else
        do a <- lds d (ac v i);
        if 0 <=? a then do d' <- st d (ac v i) (-1); wfinish v d' true [(ac v i, -1)] else Ok (d, [])
  end.
Fixpoint wrun_hist (d : list Z) (cs : list cmd) : outcome (list Z) :=
  match cs with
  | [] => Ok d
  | c :: rest =>
      match wrun d c with
      | Ok (d', _) => wrun_hist d' rest
      | Die => wrun_hist d rest
      | UB => UB
      | Fuel => Fuel
      end
  end.

(** The contents of the file while the stores are done *)
Fixpoint wstates (d : list Z) (tr : stores) : list (outcome (list Z)) :=
  match tr with
  | [] => [Ok d]
  | (o, x) :: rest => Ok d :: match st d o x with Ok d' => wstates d' rest | _ => [UB] end
  end.

(** ** Readers *)
(** A packet handler (cmdLb.c:92-97) that mapped the table with the view v reads
    lookup from d1 and active from d2. *)
Definition wread2 (v : view) (d1 d2 : list Z) (hash : Z) : outcome Z :=
  do l <- lds d1 (lk v (hash mod v_M v));
  if l >=? 0 then lds d2 (ac v l) else Ok l.

(** printf of an int *)
Definition sdec (x : Z) : chars := if x <? 0 then 45 :: dec (- x) else dec x.
(** cmdShm.c:122-123 *)
Fixpoint show_lookup (v : view) (d : list Z) (k : nat) (i : Z) : outcome chars :=
  match k with
  | O => Ok []
  | S k' => do a <- lds d (lk v i); do r <- show_lookup v d k' (i + 1); Ok (str " " ++ sdec a ++ r)
  end.
(** cmdShm.c:126-129 *)
Fixpoint show_active (v : view) (d : list Z) (k : nat) (i : Z) : outcome chars :=
  match k with
  | O => Ok []
  | S k' =>
      do a <- lds d (ac v i);
      do r <- show_active v d k' (i + 1);
      Ok (if 0 <=? a then str " " ++ sdec a ++ str "(" ++ sdec i ++ str ")" ++ r else r)
  end.
(** cmdShm.c:111-131 *)
Definition cmdShow (name : chars) (d : list Z) : outcome chars :=
  do own <- lds d 0;
  do v <- map_view d;
  do l <- show_lookup v d (Z.to_nat (Z.min 25 (v_M v))) 0;
  do a <- show_active v d (Z.to_nat (v_N v)) 0;
  Ok (str "Shm: " ++ name ++ [10] ++ str "  Fw: own=" ++ sdec own ++ [10] ++
      str "  Maglev: M=" ++ sdec (s32 (v_M v)) ++ str ", N=" ++ sdec (s32 (v_N v)) ++ [10] ++
      str "   Lookup:" ++ l ++ str "..." ++ [10] ++ str "   Active:" ++ a ++ [10]).
