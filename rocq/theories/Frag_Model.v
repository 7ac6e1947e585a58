(** Model of src/lib/fragutils.c: the fragment table, used by any number of threads.

    A thread executes one call at a time; between two accesses to shared data any other
    thread may run.  One step of a thread is: one call of the connection table with the
    call-backs it makes (the bucket is locked meanwhile), one call of an item pool, one
    critical section of the mutex in a FragData object, one atomic operation on a
    reference counter together with the release of the object when it reaches zero, or
    one load of the state or the value outside the mutex.  Memory is sequentially
    consistent.

    Simplifications: objects (FragData items) and stored fragments carry an identity that
    is never reused, so an access to an object whose item was given back is UB; the
    reassembler is represented by the result of its handleFragment call ([a_done]), the
    data it keeps per object are not represented (see Reasm_Model.v); a table operation
    that must allocate an overflow bucket may also fail when other threads compete for
    the last one ([a_starved]); counters bucketsAllocated and fragsAllocated are left out;
    the reference counter does not overflow; a look-up returns what it found, although
    ctLookup reads it again after it has given back the mutex (conntrack.c:170-171): the
    executions in which something happens in between are those of Late_Model.v. *)
From Verif Require Import Base IpKey_Model Conntrack_Model Conntrack_Spec.

(** A stored fragment: an item of the fragment pool and its contents. *)
Record frag := mkFrag { f_id : Z; f_data : list Z }.

(** fragutils.c:56-60. *)
Inductive fstate := Valid | Storing | Poisoned.

(** fragutils.c:61-68; [o_val] is None until the value was written; [o_key] is the key the
    object was created for, which the program does not keep. *)
Record obj := mkObj { o_ref : Z; o_state : fstate; o_val : option Z; o_stored : list frag; o_key : ckey }.

(** The objects in use, by identity. *)
Definition oid (x : Z * obj) : Z := fst x.
Fixpoint oget (l : list (Z * obj)) (o : Z) : option obj :=
  match l with [] => None | x :: r => if fst x =? o then Some (snd x) else oget r o end.
Fixpoint oset (l : list (Z * obj)) (o : Z) (b : obj) : list (Z * obj) :=
  match l with [] => [] | x :: r => if fst x =? o then (o, b) :: r else x :: oset r o b end.
Fixpoint odel (l : list (Z * obj)) (o : Z) : list (Z * obj) :=
  match l with [] => [] | x :: r => if fst x =? o then r else x :: odel r o end.

(** fragutils.c:42-50: the table; numbers of free items instead of the pools. *)
Record sys := mkSys {
  s_ct : ct;
  s_objs : list (Z * obj);
  s_next : Z;        (* next identity *)
  s_fdfree : Z;      (* fragDataPool *)
  s_bkfree : Z;      (* bucketPool *)
  s_frfree : Z;      (* fragmentPool *)
  s_discarded : Z;   (* fstats->fragsDiscarded *)
  s_reassembled : Z  (* fstats->reAssembled *)
}.
Definition set_ct (s : sys) (t : ct) := mkSys t (s_objs s) (s_next s) (s_fdfree s) (s_bkfree s) (s_frfree s) (s_discarded s) (s_reassembled s).
Definition set_objs (s : sys) (l : list (Z * obj)) := mkSys (s_ct s) l (s_next s) (s_fdfree s) (s_bkfree s) (s_frfree s) (s_discarded s) (s_reassembled s).
Definition set_next (s : sys) (n : Z) := mkSys (s_ct s) (s_objs s) n (s_fdfree s) (s_bkfree s) (s_frfree s) (s_discarded s) (s_reassembled s).
Definition add_fd (s : sys) (n : Z) := mkSys (s_ct s) (s_objs s) (s_next s) (s_fdfree s + n) (s_bkfree s) (s_frfree s) (s_discarded s) (s_reassembled s).
Definition add_bk (s : sys) (n : Z) := mkSys (s_ct s) (s_objs s) (s_next s) (s_fdfree s) (s_bkfree s + n) (s_frfree s) (s_discarded s) (s_reassembled s).
Definition add_fr (s : sys) (n : Z) := mkSys (s_ct s) (s_objs s) (s_next s) (s_fdfree s) (s_bkfree s) (s_frfree s + n) (s_discarded s) (s_reassembled s).
Definition add_disc (s : sys) (n : Z) := mkSys (s_ct s) (s_objs s) (s_next s) (s_fdfree s) (s_bkfree s) (s_frfree s) (u32 (s_discarded s + n)) (s_reassembled s).
Definition inc_reas (s : sys) := mkSys (s_ct s) (s_objs s) (s_next s) (s_fdfree s) (s_bkfree s) (s_frfree s) (s_discarded s) (u32 (s_reassembled s + 1)).

(** What happens, in order: a fragment is stored for a key, fragments are handed back for
    re-injection, fragments are discarded, a first fragment sets the value of a key. *)
Inductive obs :=
| Stored (k : ckey) (f : frag)
| Handed (k : ckey) (l : list frag)
| Discarded (k : ckey) (l : list frag)
| Accepted (k : ckey) (v : Z)
| Returned (k : ckey) (rc : Z) (v : option Z).

(** fragutils.c:195-222; [timeoutMillis * MS] is an unsigned 32-bit product. *)
Record conf := mkConf { g_hsize : Z; g_maxBuckets : Z; g_maxFragments : Z; g_mtu : Z; g_millis : Z }.
Definition g_ttl (g : conf) : Z := u32 (g_millis g * 1000000).
Definition fragTableCreate (g : conf) : sys :=
  mkSys (ctCreate (g_hsize g)) [] 1 (u32 (g_hsize g + g_maxBuckets g)) (g_maxBuckets g) (g_maxFragments g) 0 0.

(** fragutils.c:72-76. *)
Definition fragDataLock (s : sys) (o : Z) : outcome sys :=
  match oget (s_objs s) o with
  | None => UB
  | Some b => Ok (set_objs s (oset (s_objs s) o (mkObj (o_ref b + 1) (o_state b) (o_val b) (o_stored b) (o_key b))))
  end.

(** fragutils.c:78-100. *)
Definition fragDataUnlock (s : sys) (o : Z) : outcome (sys * list obs) :=
  match oget (s_objs s) o with
  | None => UB
  | Some b =>
      if o_ref b - 1 =? 0 then
        let n := zlen (o_stored b) in
        Ok (add_fd (add_fr (add_disc (set_objs s (odel (s_objs s) o)) n) n) 1, [Discarded (o_key b) (o_stored b)])
      else Ok (set_objs s (oset (s_objs s) o (mkObj (o_ref b - 1) (o_state b) (o_val b) (o_stored b) (o_key b))), [])
  end.

(** The call-backs of a table operation: fragDataUnlock, bucketPoolAllocate and
    bucketPoolFree (fragutils.c:167-183). *)
Fixpoint callbacks (s : sys) (ev : list event) : outcome (sys * list obs) :=
  match ev with
  | [] => Ok (s, [])
  | e :: r =>
      do x <- (match e with
               | FreeData o => fragDataUnlock s o
               | FreeBucket _ => Ok (add_bk s 1, [])
               | AllocBucket (Some _) => Ok (add_bk s (-1), [])
               | AllocBucket None => Ok (s, [])
               end);
      let '(s1, ob1) := x in
      do y <- callbacks s1 r;
      let '(s2, ob2) := y in
      Ok (s2, ob1 ++ ob2)
  end.

Definition table_op (s : sys) (o : cop) : outcome (sys * Z * list obs) :=
  do x <- cstep (s_ct s) o;
  let '(t, v, ev) := x in
  do y <- callbacks (set_ct s t) ev;
  let '(s', ob) := y in
  Ok (s', v, ob).

(** ctLookup: the call-back fragDataLock on a hit. *)
Definition lookup_op (s : sys) (now : Z) (k : ckey) : outcome (sys * Z * list obs) :=
  do x <- table_op s (OLookup now k);
  let '(s1, o, ob) := x in
  if o =? 0 then Ok (s1, 0, ob)
  else do s2 <- fragDataLock s1 o; Ok (s2, o, ob).

(** ctInsert: a bucket is available if one is free after those collected by the same call. *)
Definition insert_op (g : conf) (s : sys) (now : Z) (k : ckey) (o : Z) (starved : bool) : outcome (sys * Z * list obs) :=
  do x <- ctInsertWithTTL (s_ct s) now k (g_ttl g) o (Some (s_next s));
  let '(_, _, ev) := x in
  let avail := negb starved && (0 <? s_bkfree s + zlen (freed_buckets ev)) in
  table_op (set_next s (s_next s + 1)) (OInsert now k (g_ttl g) o (if avail then Some (s_next s) else None)).

(** fragInsertFirst (266-309), with storedFragments NULL if [want] is false and within
    handleFirstFragment (453-474) otherwise; fragGetValue (311-325); fragGetValueOrStore
    (327-439). *)
Inductive call :=
| CFirst (now : Z) (k : ckey) (v : Z) (want : bool)
| CGet (now : Z) (k : ckey)
| CStore (now : Z) (k : ckey) (data : list Z).
Definition c_now (c : call) : Z := match c with CFirst n _ _ _ | CGet n _ | CStore n _ _ => n end.
Definition c_k (c : call) : ckey := match c with CFirst _ k _ _ | CGet _ k | CStore _ k _ => k end.

(** Where a thread is. *)
Inductive pc :=
| Idle
(* fragDataLookup *)
| PAlloc (c : call)                       (* 114: the lookup missed *)
| PIns (c : call) (o : Z)                 (* 124: object allocated and initialised *)
| PInc (c : call) (o : Z)                 (* 127: inserted, REFINC is next *)
| PLost (c : call) (o : Z)                (* 134: ctInsert returned 1 *)
| PAgain (c : call)                       (* 135 *)
| PFull (c : call) (o : Z)                (* 149: ctInsert returned -1 *)
| PBody (c : call) (o : Z)                (* fragDataLookup returned *)
(* fragInsertFirst *)
| PTaken (c : call) (o : Z) (l : list frag)  (* 297: fragDataUnlock with fragments taken *)
| PGive (c : call) (l : list frag)           (* 299-305 *)
(* fragGetValueOrStore *)
| PCheck (c : call) (o : Z)               (* 357 *)
| PVal (c : call) (o : Z)                 (* 359, 320: read of the value *)
| PItem (c : call) (o : Z)                (* 377 *)
| PPoison (c : call) (o : Z)              (* 382-386 *)
| PPoisoned (c : call) (o : Z) (l : list frag) (* 387 *)
| PDrop (c : call) (l : list frag)        (* 389-393 *)
| PPut (c : call) (o : Z) (f : frag)      (* 399-427 *)
| PBack (c : call) (o : Z) (f : frag) (rc : Z) (v : option Z) (* 431: free the item *)
| PUnl (c : call) (o : Z) (rc : Z) (v : option Z). (* fragDataUnlock and return *)

(** What the environment decides in a step. *)
Record choice := mkChoice { a_call : call; a_done : bool; a_starved : bool }.

Definition ret (c : call) (rc : Z) (v : option Z) : list obs := [Returned (c_k c) rc v].

Definition set_obj (s : sys) (o : Z) (b : obj) : sys := set_objs s (oset (s_objs s) o b).

(** One step of a thread. *)
Definition tstep (g : conf) (s : sys) (p : pc) (a : choice) : outcome (sys * pc * list obs) :=
  match p with
  | Idle =>
      (* 110, 315 *)
      let c := a_call a in
      do x <- lookup_op s (c_now c) (c_k c);
      let '(s1, o, ob) := x in
      if o =? 0 then
        match c with
        | CGet _ _ => Ok (s1, Idle, ob ++ ret c (-1) None)
        | _ => Ok (s1, PAlloc c, ob)
        end
      else Ok (s1, PBody c o, ob)
  | PAlloc c =>
      (* 114-120 *)
      if s_fdfree s <=? 0 then Ok (s, Idle, ret c (-1) None)
      else
        let o := s_next s in
        Ok (add_fd (set_next (set_objs s ((o, mkObj 1 Storing None [] (c_k c)) :: s_objs s)) (o + 1)) (-1), PIns c o, [])
  | PIns c o =>
      (* 124 *)
      do x <- insert_op g s (c_now c) (c_k c) o (a_starved a);
      let '(s1, rc, ob) := x in
      Ok (s1, (if rc =? 0 then PInc c o else if rc =? 1 then PLost c o else PFull c o), ob)
  | PInc c o =>
      (* 127 *)
      do s1 <- fragDataLock s o; Ok (s1, PBody c o, [])
  | PLost c o =>
      (* 134 *)
      do x <- fragDataUnlock s o;
      let '(s1, ob) := x in Ok (s1, PAgain c, ob)
  | PAgain c =>
      (* 135-142 *)
      do x <- lookup_op s (c_now c) (c_k c);
      let '(s1, o, ob) := x in
      if o =? 0 then Ok (s1, Idle, ob ++ ret c (-1) None) else Ok (s1, PBody c o, ob)
  | PFull c o =>
      do x <- fragDataUnlock s o;
      let '(s1, ob) := x in Ok (s1, Idle, ob ++ ret c (-1) None)
  | PUnl c o rc v =>
      do x <- fragDataUnlock s o;
      let '(s1, ob) := x in Ok (s1, Idle, ob ++ ret c rc v)
  | PBody c o =>
      match oget (s_objs s) o with
      | None => UB
      | Some b =>
          match c with
          | CFirst _ k v _ =>
              (* 280-296 *)
              match o_state b with
              | Storing =>
                  Ok (set_obj s o (mkObj (o_ref b) Valid (Some v) [] (o_key b)), PTaken c o (o_stored b), [Accepted k v])
              | _ => Ok (s, PUnl c o (-1) None, [])
              end
          | CGet _ _ =>
              (* 318 *)
              match o_state b with
              | Valid => Ok (s, PVal c o, [])
              | _ => Ok (s, PUnl c o (-1) None, [])
              end
          | CStore now k _ =>
              (* 337-354 *)
              match o_state b, a_done a with
              | Valid, true =>
                  do x <- table_op s (ORemove now k);
                  let '(s1, _, ob) := x in
                  Ok (inc_reas s1, PCheck c o, ob)
              | _, _ => Ok (s, PCheck c o, [])
              end
          end
      end
  | PTaken c o l =>
      (* 297 *)
      do x <- fragDataUnlock s o;
      let '(s1, ob) := x in Ok (s1, PGive c l, ob)
  | PGive c l =>
      (* 299-305, 461-472 *)
      let n := zlen l in
      match c with
      | CFirst _ k _ false => Ok (add_fr (add_disc s n) n, Idle, Discarded k l :: ret c 0 None)
      | _ => Ok (add_fr s n, Idle, Handed (c_k c) l :: ret c 0 None)
      end
  | PCheck c o =>
      (* 357-375 *)
      match oget (s_objs s) o with
      | None => UB
      | Some b =>
          match o_state b, c with
          | Valid, _ => Ok (s, PVal c o, [])
          | Storing, CStore _ _ data =>
              if g_mtu g <? zlen data then Ok (s, PUnl c o (-1) None, []) else Ok (s, PItem c o, [])
          | _, _ => Ok (s, PUnl c o (-1) None, [])
          end
      end
  | PVal c o =>
      (* 320, 359; an object whose value was never written holds an indeterminate value *)
      match oget (s_objs s) o with
      | None => UB
      | Some b => match o_val b with None => UB | Some v => Ok (s, PUnl c o 0 (Some v), []) end
      end
  | PItem c o =>
      (* 377, 396-397 *)
      match c with
      | CStore _ _ data =>
          if s_frfree s <=? 0 then Ok (s, PPoison c o, [])
          else Ok (add_fr (set_next s (s_next s + 1)) (-1), PPut c o (mkFrag (s_next s) data), [])
      | _ => UB
      end
  | PPoison c o =>
      (* 382-386 *)
      match oget (s_objs s) o with
      | None => UB
      | Some b => Ok (set_obj s o (mkObj (o_ref b) Poisoned (o_val b) [] (o_key b)), PPoisoned c o (o_stored b), [])
      end
  | PPoisoned c o l =>
      (* 387 *)
      do x <- fragDataUnlock s o;
      let '(s1, ob) := x in Ok (s1, PDrop c l, ob)
  | PDrop c l =>
      (* 389-393 *)
      let n := zlen l in
      Ok (add_fr (add_disc s n) n, Idle, Discarded (c_k c) l :: ret c (-1) None)
  | PPut c o f =>
      (* 400-426 *)
      match oget (s_objs s) o with
      | None => UB
      | Some b =>
          match o_state b with
          | Valid =>
              match o_val b with None => UB | Some v => Ok (s, PBack c o f 0 (Some v), []) end
          | Poisoned => Ok (s, PBack c o f (-1) None, [])
          | Storing =>
              Ok (set_obj s o (mkObj (o_ref b) Storing (o_val b) (f :: o_stored b) (o_key b)), PUnl c o 1 None, [Stored (c_k c) f])
          end
      end
  | PBack c o f rc v =>
      (* 431 *)
      Ok (add_fr s 1, PUnl c o rc v, [])
  end.

(** fragGetStats (480-510): ctStats collects one bucket after the other (conntrack.c:272-276). *)
Definition gc_bucket (s : sys) (i now : Z) : outcome (sys * list obs) :=
  do b <- aget (t_buckets (s_ct s)) i;
  let '(b', ev, n, _) := bucketGC b now in
  callbacks (set_ct s (mkCt (zupd (t_buckets (s_ct s)) i b') (gcs (t_stats (s_ct s)) n))) ev.

(** A step of the program: of thread number [i], or of a thread that reads the statistics. *)
Inductive label := LThread (i : Z) (a : choice) | LStats (i now : Z).
Record world := mkWorld { w_sys : sys; w_pcs : list pc }.
Definition start (g : conf) (threads : nat) : world := mkWorld (fragTableCreate g) (repeat Idle threads).

(** None: the label does not apply (no such thread or bucket). *)
Definition wstep (g : conf) (w : world) (l : label) : option (outcome (world * list obs)) :=
  match l with
  | LThread i a =>
      match znth (w_pcs w) i with
      | None => None
      | Some p =>
          Some (do x <- tstep g (w_sys w) p a;
                let '(s, p', ob) := x in Ok (mkWorld s (zupd (w_pcs w) i p'), ob))
      end
  | LStats i now =>
      if (0 <=? i) && (i <? zlen (t_buckets (s_ct (w_sys w)))) then
        Some (do x <- gc_bucket (w_sys w) i now;
              let '(s, ob) := x in Ok (mkWorld s (w_pcs w), ob))
      else None
  end.

(** A call executed by one thread without interruption. *)
Fixpoint finish (n : nat) (g : conf) (s : sys) (p : pc) (a : choice) : outcome (sys * list obs) :=
  match n with
  | O => Fuel
  | S n =>
      do x <- tstep g s p a;
      let '(s1, p1, ob1) := x in
      match p1 with
      | Idle => Ok (s1, ob1)
      | _ => do y <- finish n g s1 p1 a; let '(s2, ob2) := y in Ok (s2, ob1 ++ ob2)
      end
  end.
Definition call_op (g : conf) (s : sys) (c : call) (done : bool) : outcome (sys * list obs) :=
  finish 12 g s Idle (mkChoice c done false).
