(** Model of src/lib/conntrack.c: hash table with time-to-live.

    Simplifications: the overflow chain of a bucket is a list (head first); the memory of
    an overflow bucket is represented by the identity that the user's allocator returned;
    user data are numbers with 0 for NULL; freefn is present and lockfn (which runs while
    the bucket is locked) is left to the caller's model; ctUseStats (which moves the
    counters elsewhere) and mutex calls are left out.  Every operation locks one bucket
    for its whole duration, ctStats one after the other; but ctLookup reads the data that it
    returns again after it has given back the mutex, which is in Late_Model.v and not here. *)
From Verif Require Import Base IpKey_Model.

Definition ckey := list Z.
Definition key_eqb (a b : ckey) : bool := if list_eq_dec Z.eq_dec a b then true else false.

(** conntrack.c:33-40; [c_mem]: the identity of the memory of an overflow bucket. *)
Record cent := mkCent { c_key : ckey; c_data : Z; c_ref : Z; c_ttl : Z; c_mem : Z }.
Record bucket := mkBucket { b_main : cent; b_chain : list cent }.

(** conntrack.h:60-71. *)
Record cstats := mkStats { s_collisions : Z; s_inserts : Z; s_rejected : Z; s_lookups : Z; s_objGC : Z }.
Record ct := mkCt { t_buckets : list bucket; t_stats : cstats }.

(** Calls of the user's functions. *)
Inductive event := FreeData (d : Z) | FreeBucket (m : Z) | AllocBucket (r : option Z).

Definition set_ref (e : cent) (now : Z) : cent := mkCent (c_key e) (c_data e) now (c_ttl e) (c_mem e).
Definition set_data (e : cent) (d : Z) : cent := mkCent (c_key e) d (c_ref e) (c_ttl e) (c_mem e).

(** conntrack.c:70, 82, 106: unsigned 64-bit difference. *)
Definition stale (e : cent) (now : Z) : bool := c_ttl e <? u64 (now - c_ref e).

(** conntrack.c:70-75 and 106-111. *)
Definition gc_main (m : cent) (now : Z) : cent * list event * Z :=
  if negb (c_data m =? 0) && stale m now then (set_data m 0, [FreeData (c_data m)], 1) else (m, [], 0).

(** conntrack.c:79-93. *)
Fixpoint gc_chain (l : list cent) (now : Z) : list cent * list event * Z :=
  match l with
  | [] => ([], [], 0)
  | e :: r =>
      let '(l', ev, n) := gc_chain r now in
      if stale e now then
        (l', (if c_data e =? 0 then [] else [FreeData (c_data e)]) ++ FreeBucket (c_mem e) :: ev, 1 + n)
      else (e :: l', ev, n)
  end.

(** conntrack.c:66-95; the last component is the returned number of active buckets, the
    one before the number of objGC increments. *)
Definition bucketGC (b : bucket) (now : Z) : bucket * list event * Z * Z :=
  let '(m, ev1, n1) := gc_main (b_main b) now in
  let '(l, ev2, n2) := gc_chain (b_chain b) now in
  (mkBucket m l, ev1 ++ ev2, n1 + n2, (if c_data m =? 0 then 0 else 1) + zlen l).

(** conntrack.c:101-102; division by zero is UB. *)
Definition slot (t : list bucket) (k : ckey) : outcome Z :=
  if zlen t =? 0 then UB else Ok (djb2 k mod zlen t).

(** conntrack.c:98-120. *)
Definition lookupBucket (b : bucket) (now : Z) : bucket * list event * Z :=
  let '(m, ev1, n1) := gc_main (b_main b) now in
  let b1 := mkBucket m (b_chain b) in
  match b_chain b with
  | [] => (b1, ev1, n1)
  | _ => let '(b2, ev2, n2, _) := bucketGC b1 now in (b2, ev1 ++ ev2, n1 + n2)
  end.

Definition hit (k : ckey) (e : cent) : bool := negb (c_data e =? 0) && key_eqb k (c_key e).

(** conntrack.c:166-174 and 190-198: the search loop; the entry found is touched. *)
Fixpoint touch (l : list cent) (k : ckey) (now : Z) : option (list cent * Z) :=
  match l with
  | [] => None
  | e :: r =>
      if hit k e then Some (set_ref e now :: r, c_data e)
      else match touch r k now with Some (r', d) => Some (e :: r', d) | None => None end
  end.
Definition search (b : bucket) (k : ckey) (now : Z) : option (bucket * Z) :=
  match touch (b_main b :: b_chain b) k now with
  | Some (m :: l, d) => Some (mkBucket m l, d)
  | _ => None
  end.

Definition gcs (s : cstats) (n : Z) : cstats :=
  mkStats (s_collisions s) (s_inserts s) (s_rejected s) (s_lookups s) (u32 (s_objGC s + n)).
Definition inc_lookups (s : cstats) : cstats :=
  mkStats (s_collisions s) (s_inserts s) (s_rejected s) (u32 (s_lookups s + 1)) (s_objGC s).
Definition inc_inserts (s : cstats) : cstats :=
  mkStats (s_collisions s) (u32 (s_inserts s + 1)) (s_rejected s) (s_lookups s) (s_objGC s).
Definition inc_collisions (s : cstats) : cstats :=
  mkStats (u32 (s_collisions s + 1)) (s_inserts s) (s_rejected s) (s_lookups s) (s_objGC s).
Definition inc_rejected (s : cstats) : cstats :=
  mkStats (s_collisions s) (s_inserts s) (u32 (s_rejected s + 1)) (s_lookups s) (s_objGC s).

(** conntrack.c:122-151: calloc'ed buckets; the all-zero key has 40 bytes. *)
Definition ctCreate (hsize : Z) : ct :=
  mkCt (repeat (mkBucket (mkCent (repeat 0 40) 0 0 0 0) []) (Z.to_nat hsize)) (mkStats 0 0 0 0 0).

(** conntrack.c:159-177; result: the datum or 0. *)
Definition ctLookup (t : ct) (now : Z) (k : ckey) : outcome (ct * Z * list event) :=
  do i <- slot (t_buckets t) k;
  do b0 <- aget (t_buckets t) i;
  let '(b, ev, n) := lookupBucket b0 now in
  let s := inc_lookups (gcs (t_stats t) n) in
  match search b k now with
  | Some (b', d) => Ok (mkCt (zupd (t_buckets t) i b') s, d, ev)
  | None => Ok (mkCt (zupd (t_buckets t) i b) s, 0, ev)
  end.

(** conntrack.c:178-228; [alloc]: what the user's allocBucket returns if called. *)
Definition ctInsertWithTTL (t : ct) (now : Z) (k : ckey) (ttl data : Z) (alloc : option Z)
  : outcome (ct * Z * list event) :=
  if data =? 0 then Ok (t, -1, [])
  else
    do i <- slot (t_buckets t) k;
    do b0 <- aget (t_buckets t) i;
    let '(b, ev, n) := lookupBucket b0 now in
    let s := inc_inserts (gcs (t_stats t) n) in
    match search b k now with
    | Some (b', _) => Ok (mkCt (zupd (t_buckets t) i b') s, 1, ev)
    | None =>
        if c_data (b_main b) =? 0 then
          let s := match b_chain b with [] => s | _ => inc_collisions s end in
          Ok (mkCt (zupd (t_buckets t) i (mkBucket (mkCent k data now ttl (c_mem (b_main b))) (b_chain b))) s, 0, ev)
        else
          let s := inc_collisions s in
          match alloc with
          | None => Ok (mkCt (zupd (t_buckets t) i b) (inc_rejected s), -1, ev ++ [AllocBucket None])
          | Some m => Ok (mkCt (zupd (t_buckets t) i (mkBucket (b_main b) (mkCent k data now ttl m :: b_chain b))) s, 0, ev ++ [AllocBucket (Some m)])
          end
    end.

(** conntrack.c:247-260. *)
Fixpoint remove_chain (l : list cent) (k : ckey) : list cent * list event :=
  match l with
  | [] => ([], [])
  | e :: r =>
      if key_eqb k (c_key e) then
        (r, (if c_data e =? 0 then [] else [FreeData (c_data e)]) ++ [FreeBucket (c_mem e)])
      else let '(r', ev) := remove_chain r k in (e :: r', ev)
  end.

(** conntrack.c:235-262. *)
Definition ctRemove (t : ct) (now : Z) (k : ckey) : outcome (ct * list event) :=
  do i <- slot (t_buckets t) k;
  do b0 <- aget (t_buckets t) i;
  let '(b, ev, n) := lookupBucket b0 now in
  let s := gcs (t_stats t) n in
  if key_eqb k (c_key (b_main b)) then
    let ev' := if c_data (b_main b) =? 0 then [] else [FreeData (c_data (b_main b))] in
    Ok (mkCt (zupd (t_buckets t) i (mkBucket (set_data (b_main b) 0) (b_chain b))) s, ev ++ ev')
  else
    let '(l, ev') := remove_chain (b_chain b) k in
    Ok (mkCt (zupd (t_buckets t) i (mkBucket (b_main b) l)) s, ev ++ ev').

(** conntrack.c:266-279 (and the loop of 280-294). *)
Fixpoint gc_all (l : list bucket) (now : Z) : list bucket * list event * Z * Z :=
  match l with
  | [] => ([], [], 0, 0)
  | b :: r =>
      let '(b', ev, n, a) := bucketGC b now in
      let '(r', ev', n', a') := gc_all r now in
      (b' :: r', ev ++ ev', n + n', a + a')
  end.
Definition ctStats (t : ct) (now : Z) : ct * Z * list event :=
  let '(bs, ev, n, a) := gc_all (t_buckets t) now in
  (mkCt bs (gcs (t_stats t) n), u32 a, ev).

(** conntrack.c:280-294. *)
Definition ctDestroy (t : ct) : list event :=
  let '(_, ev, _, _) := gc_all (t_buckets t) UINT64_MAX in ev.

(** Histories of calls. *)
Inductive cop :=
| OLookup (now : Z) (k : ckey)
| OInsert (now : Z) (k : ckey) (ttl data : Z) (alloc : option Z)
| ORemove (now : Z) (k : ckey)
| OStats (now : Z).
Definition cstep (t : ct) (o : cop) : outcome (ct * Z * list event) :=
  match o with
  | OLookup now k => ctLookup t now k
  | OInsert now k ttl d al => ctInsertWithTTL t now k ttl d al
  | ORemove now k => do r <- ctRemove t now k; let '(t', ev) := r in Ok (t', 0, ev)
  | OStats now => Ok (ctStats t now)
  end.
Fixpoint crun (t : ct) (l : list cop) : outcome (ct * list Z * list event) :=
  match l with
  | [] => Ok (t, [], [])
  | o :: r =>
      do x <- cstep t o;
      let '(t1, v, ev) := x in
      do y <- crun t1 r;
      let '(t2, vs, ev2) := y in
      Ok (t2, v :: vs, ev ++ ev2)
  end.
