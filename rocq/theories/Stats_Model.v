(** The statistics of the load-balancers in shared memory:
    src/lib/fragutils.c:195-222, 258-263, 512-540, src/lib/conntrack.c:153-157
    and src/nfqlb/cmdShm.c:136-150.

    The table of fragments (Frag_Model.v, Conntrack_Model.v) has its counters,
    and the number of its buckets, in a shared memory object (fragUseStats).
    Here several processes use such objects.  An object is never unlinked; its
    truncation, the writing of zeros and fragUseStats are one step each; an
    operation on a table is one step; counters of fragments (fragsDiscarded,
    fragsAllocated, reAssembled) are left as they are (see C24); calloc,
    shm_open of the statistics and mmap do not fail. *)
From Coq Require Import String.
From Verif Require Import Base Cstr_Model IpKey_Model Rangeset_Model Conntrack_Model Frag_Model.

(** struct ctStats, conntrack.h:62-71, and struct fragStats, fragutils.h:144-156 *)
Record fstats := mkF {
  z_ttlNanos : Z; z_size : Z; z_active : Z; z_collisions : Z; z_inserts : Z; z_rejected : Z; z_lookups : Z; z_objGC : Z;
  z_mtu : Z; z_bucketsMax : Z; z_bucketsAllocated : Z; z_bucketsUsed : Z; z_fragsMax : Z; z_fragsDiscarded : Z;
  z_fragsAllocated : Z; z_reAssembled : Z }.
Definition zeros : fstats := mkF 0 0 0 0 0 0 0 0 0 0 0 0 0 0 0 0.

(** One line of the output: the text before the number and the end *)
Definition row (s : string) (v : Z) (e : string) : chars := str s ++ dec v ++ str e ++ [10].

(** fragPrintStats, fragutils.c:512-538; dec is "%u" *)
Definition fragPrintStats (f : fstats) : chars :=
  str "{" ++ [10] ++
  row "  ""hsize"":            " (z_size f) "," ++
  row "  ""ttlMillis"":        " (u32 (z_ttlNanos f / 1000000)) "," ++
  row "  ""collisions"":       " (z_collisions f) "," ++
  row "  ""inserts"":          " (z_inserts f) "," ++
  row "  ""rejected"":         " (z_rejected f) "," ++
  row "  ""lookups"":          " (z_lookups f) "," ++
  row "  ""objGC"":            " (z_objGC f) "," ++
  row "  ""mtu"":              " (z_mtu f) "," ++
  row "  ""bucketsMax"":       " (z_bucketsMax f) "," ++
  row "  ""bucketsAllocated"": " (z_bucketsAllocated f) "," ++
  row "  ""bucketsUsed"":      " (z_bucketsUsed f) "," ++
  row "  ""fragsMax"":         " (z_fragsMax f) "," ++
  row "  ""fragsAllocated"":   " (z_fragsAllocated f) "," ++
  row "  ""fragsDiscarded"":   " (z_fragsDiscarded f) "" ++
  row "  ""reAssembled"":      " (z_reAssembled f) "" ++
  str "}" ++ [10].

(** ** Tables with shared counters *)

(** A shared memory object with the statistics; Empty after O_TRUNC, when an
    access to the mapped page is a SIGBUS *)
Inductive content := Missing | Empty | Holds (f : fstats).

(** The counters of conntrack.c in the shared object, and those of
    bucketPoolAllocate and bucketPoolFree, fragutils.c:167-183 *)
Definition ctOf (f : fstats) : cstats := mkStats (z_collisions f) (z_inserts f) (z_rejected f) (z_lookups f) (z_objGC f).
Definition isAlloc (e : event) : bool := match e with AllocBucket (Some _) => true | _ => false end.
Definition isFree (e : event) : bool := match e with FreeBucket _ => true | _ => false end.
Definition count (p : event -> bool) (ev : list event) : Z := zlen (filter p ev).
Definition addStats (f : fstats) (s : cstats) (ev : list event) : fstats :=
  mkF (z_ttlNanos f) (z_size f) (z_active f) (s_collisions s) (s_inserts s) (s_rejected s) (s_lookups s) (s_objGC s)
      (z_mtu f) (z_bucketsMax f) (u32 (z_bucketsAllocated f + count isAlloc ev))
      (u32 (z_bucketsUsed f + count isAlloc ev - count isFree ev)) (z_fragsMax f) (z_fragsDiscarded f) (z_fragsAllocated f) (z_reAssembled f).

(** What an operation does to the bucket: ctLookup, conntrack.c:159-177,
    ctInsertWithTTL, 178-228, ctRemove, 235-262.  It is as in
    Conntrack_Model.v. *)
Definition bucketOp (b0 : bucket) (s : cstats) (o : cop) : bucket * cstats * Z * list event :=
  match o with
  | OLookup now k =>
      let '(b, ev, n) := lookupBucket b0 now in
      let s := inc_lookups (gcs s n) in
      match search b k now with Some (b', d) => (b', s, d, ev) | None => (b, s, 0, ev) end
  | OInsert now k ttl data alloc =>
      let '(b, ev, n) := lookupBucket b0 now in
      let s := inc_inserts (gcs s n) in
      match search b k now with
      | Some (b', _) => (b', s, 1, ev)
      | None =>
          if c_data (b_main b) =? 0 then
            (mkBucket (mkCent k data now ttl (c_mem (b_main b))) (b_chain b), match b_chain b with [] => s | _ => inc_collisions s end, 0, ev)
          else
            match alloc with
            | None => (b, inc_rejected (inc_collisions s), -1, ev ++ [AllocBucket None])
            | Some m => (mkBucket (b_main b) (mkCent k data now ttl m :: b_chain b), inc_collisions s, 0, ev ++ [AllocBucket (Some m)])
            end
      end
  | ORemove now k =>
      let '(b, ev, n) := lookupBucket b0 now in
      let s := gcs s n in
      if key_eqb k (c_key (b_main b)) then
        (mkBucket (set_data (b_main b) 0) (b_chain b), s, 0, ev ++ (if c_data (b_main b) =? 0 then [] else [FreeData (c_data (b_main b))]))
      else let '(l, ev') := remove_chain (b_chain b) k in (mkBucket (b_main b) l, s, 0, ev ++ ev')
  | OStats _ => (b0, s, 0, [])
  end.

(** conntrack.c:101-102: the number of buckets is read from the shared
    object; division by zero and a bucket behind the table are UB.  ctStats
    (which no load-balancer calls) reads the number too, 272. *)
Definition tableOp (f : fstats) (bs : list bucket) (o : cop) : outcome (list bucket * fstats * Z * list event) :=
  let at_key k :=
    if z_size f =? 0 then UB
    else
      let i := djb2 k mod z_size f in
      do b <- aget bs i;
      let '(b', s, v, ev) := bucketOp b (ctOf f) o in
      Ok (zupd bs i b', addStats f s ev, v, ev) in
  match o with
  | OLookup _ k => at_key k
  | OInsert _ k _ data _ => if data =? 0 then Ok (bs, f, -1, []) else at_key k
  | ORemove _ k => at_key k
  | OStats now =>
      if zlen bs <? z_size f then UB
      else
        let '(l, ev, n, a) := gc_all (firstn (Z.to_nat (z_size f)) bs) now in
        Ok (l ++ skipn (Z.to_nat (z_size f)) bs, addStats f (gcs (ctOf f) n) ev, u32 a, ev)
  end.

(** ** Processes on one host *)

(** A running load-balancer: the name of its statistics and its buckets *)
Record proc := mkProc { pr_ft : chars; pr_tab : list bucket }.
Record host := mkHost { ho_obj : chars -> content; ho_proc : Z -> option proc }.
Definition put {A} (f : chars -> A) (n : chars) (x : A) : chars -> A := fun m => if streq m n then x else f m.
Definition putp {A} (f : Z -> A) (i : Z) (x : A) : Z -> A := fun j => if j =? i then x else f j.

(** fragTableCreate, fragutils.c:195-222, with the counters that
    fragUseStats, 258-263, copies to the shared object *)
Definition firstStats (g : conf) : fstats :=
  mkF (g_ttl g) (g_hsize g) 0 0 0 0 0 0 (g_mtu g) (g_maxBuckets g) 0 0 (g_maxFragments g) 0 0 0.

(** HTrunc, HZero: shm_open with O_TRUNC and write of createSharedData,
    shmem.c:38-47, called in cmdLb.c:175-179 and cmdFlowLb.c:299-303; HReady:
    fragUseStats by process number i; HOp: an operation of process i on its
    table *)
Inductive hlabel := HTrunc (n : chars) | HZero (n : chars) | HReady (i : Z) (n : chars) (g : conf) | HOp (i : Z) (o : cop).
(** The answers to operations: process, operation, value; None: the process
    was killed by a signal (or does anything, if it leaves its table; not
    represented). *)
Definition hres := list (Z * cop * option Z).
Definition hstep (h : host) (l : hlabel) : host * hres :=
  match l with
  | HTrunc n => (mkHost (put (ho_obj h) n Empty) (ho_proc h), [])
  | HZero n => (mkHost (put (ho_obj h) n (Holds zeros)) (ho_proc h), [])
  | HReady i n g =>
      match ho_obj h n with
      | Holds _ => (mkHost (put (ho_obj h) n (Holds (firstStats g))) (putp (ho_proc h) i (Some (mkProc n (t_buckets (ctCreate (g_hsize g)))))), [])
      | _ => (mkHost (ho_obj h) (putp (ho_proc h) i None), [])
      end
  | HOp i o =>
      match ho_proc h i with
      | None => (h, [])
      | Some p =>
          match ho_obj h (pr_ft p) with
          | Holds f =>
              match tableOp f (pr_tab p) o with
              | Ok (bs, f', v, _) =>
                  (mkHost (put (ho_obj h) (pr_ft p) (Holds f')) (putp (ho_proc h) i (Some (mkProc (pr_ft p) bs))), [(i, o, Some v)])
              | _ => (mkHost (ho_obj h) (putp (ho_proc h) i None), [(i, o, None)])
              end
          | _ => (mkHost (ho_obj h) (putp (ho_proc h) i None), [(i, o, None)])
          end
      end
  end.
Fixpoint hrun (h : host) (ls : list hlabel) : host * hres :=
  match ls with
  | [] => (h, [])
  | l :: r => let '(h1, a) := hstep h l in let '(h2, b) := hrun h1 r in (h2, a ++ b)
  end.
Definition fresh : host := mkHost (fun _ => Missing) (fun _ => None).
