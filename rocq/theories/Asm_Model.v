(** The fragment table with the reassembler registered: src/lib/fragutils.c with
    src/lib/reassembler.c (cmdLb.c:218-219, cmdFlowLb.c:337-338), used by any number of threads.

    The table is that of Frag_Model.v, whose steps leave open what the reassembler
    says; here it is what Reasm_Model.v computes.  An object (FragData) with a tracker
    (assemblyData) that is not NULL is in [a_trk].  The trackers are handled within
    the steps of Frag_Model.v: raNew in the step that initialises the object
    (fragutils.c:121-122), raHandleFragment and raDestoy in the critical section of the
    object's mutex (280-283, 338-355), raDestoy in the step that releases it (94-96).
    A call of raHandleFragment is one step; the pool of holes is shared by all
    objects and every use of it is locked (itempool.c), so that calls for several
    objects may in fact interleave item by item.  fstats->fragsAllocated is counted in
    the step of fragDataUnlock that follows (435-437). *)
From Verif Require Import Base IpKey_Model Conntrack_Model Conntrack_Spec Reasm_Model Frag_Model.

Record asys := mkA {
  a_sys : sys;
  a_pool : pool;                 (* obj.holePool, reassembler.c:44 *)
  a_trk : list (Z * tracker);    (* assemblyData of the objects *)
  a_frags : Z                    (* fstats->fragsAllocated *)
}.
Fixpoint tget (l : list (Z * tracker)) (o : Z) : option tracker :=
  match l with [] => None | x :: r => if fst x =? o then Some (snd x) else tget r o end.
Fixpoint tset (l : list (Z * tracker)) (o : Z) (t : tracker) : list (Z * tracker) :=
  match l with [] => [] | x :: r => if fst x =? o then (o, t) :: r else x :: tset r o t end.
Fixpoint tdel (l : list (Z * tracker)) (o : Z) : list (Z * tracker) :=
  match l with [] => [] | x :: r => if fst x =? o then r else x :: tdel r o end.

(** createReassembler and fragTableCreate *)
Definition asmCreate (g : conf) (size : nat) : asys := mkA (fragTableCreate g) (createReassembler size) [] 0.

(** fragutils.c:121-122 *)
Definition newTracker (x : asys) (o : Z) : asys :=
  match raNew (a_pool x) with
  | (None, p) => mkA (a_sys x) p (a_trk x) (a_frags x)
  | (Some t, p) => mkA (a_sys x) p ((o, t) :: a_trk x) (a_frags x)
  end.
(** fragutils.c:94-96 and 349-350 *)
Definition endTracker (x : asys) (o : Z) : asys :=
  match tget (a_trk x) o with
  | None => x
  | Some t => mkA (a_sys x) (raDestroy t (a_pool x)) (tdel (a_trk x) o) (a_frags x)
  end.
(** raHandleFragment for object o *)
Definition handle (x : asys) (o : Z) (t : tracker) (data : list Z) : outcome (asys * Z) :=
  do y <- raHandleFragment t data (a_pool x);
  let '(r, t', p) := y in
  Ok (mkA (a_sys x) p (tset (a_trk x) o t') (a_frags x), r).

(** The critical sections fragutils.c:279-284 and 338-355, as far as the tracker is
    concerned; the result tells whether the datagram is complete.  [data] is the packet. *)
Definition assemble (x : asys) (p : pc) (data : list Z) : outcome (asys * bool) :=
  match p with
  | PBody c o =>
      match tget (a_trk x) o with
      | None => Ok (x, false)
      | Some t =>
          match c with
          | CGet _ _ => Ok (x, false)
          | CFirst _ _ _ _ => do y <- handle x o t data; Ok (fst y, false)
          | CStore _ _ d =>
              match oget (s_objs (a_sys x)) o with
              | None => UB
              | Some b =>
                  match o_state b with
                  | Valid => do y <- handle x o t d; Ok (fst y, snd y =? 0)
                  | _ => Ok (endTracker x o, false)
                  end
              end
          end
      end
  | _ => Ok (x, false)
  end.

(** The objects whose reference a step gives up, in order: those freed by the table
    (fragDataUnlock is its freefn, fragutils.c:216-218) and that of the thread. *)
Definition freedOf (r : outcome (ct * Z * list event)) : list Z :=
  match r with Ok (_, _, ev) => freed_data ev | _ => [] end.
Definition insertEvents (g : conf) (s : sys) (now : Z) (k : ckey) (o : Z) (starved : bool) : list Z :=
  match ctInsertWithTTL (s_ct s) now k (g_ttl g) o (Some (s_next s)) with
  | Ok (_, _, ev) =>
      let avail := negb starved && (0 <? s_bkfree s + zlen (freed_buckets ev)) in
      freedOf (cstep (s_ct s) (OInsert now k (g_ttl g) o (if avail then Some (s_next s) else None)))
  | _ => []
  end.
Definition unlocked (g : conf) (s : sys) (p : pc) (a : choice) : list Z :=
  match p with
  | Idle => freedOf (cstep (s_ct s) (OLookup (c_now (a_call a)) (c_k (a_call a))))
  | PAgain c => freedOf (cstep (s_ct s) (OLookup (c_now c) (c_k c)))
  | PIns c o => insertEvents g s (c_now c) (c_k c) o (a_starved a)
  | PBody c o => if a_done a then freedOf (cstep (s_ct s) (ORemove (c_now c) (c_k c))) else []
  | PLost _ o | PFull _ o | PUnl _ o _ _ | PTaken _ o _ | PPoisoned _ o _ => [o]
  | _ => []
  end.
(** fragutils.c:94-96 for those that were released *)
Fixpoint endAll (x : asys) (l : list Z) : asys :=
  match l with
  | [] => x
  | o :: r =>
      match oget (s_objs (a_sys x)) o with
      | None => endAll (endTracker x o) r
      | Some _ => endAll x r
      end
  end.

(** One step of a thread whose packet is [data] *)
Definition atstep (g : conf) (x : asys) (p : pc) (data : list Z) (c : call) (starved : bool) : outcome (asys * pc * list obs) :=
  do y <- assemble x p data;
  let '(x1, done) := y in
  let a := mkChoice c done starved in
  do z <- tstep g (a_sys x1) p a;
  let '(s', p', ob) := z in
  let n := match p with PUnl _ _ 1 _ => 1 | _ => 0 end in
  let x2 := endAll (mkA s' (a_pool x1) (a_trk x1) (u32 (a_frags x1 + n))) (unlocked g (a_sys x1) p a) in
  Ok (match p, p' with PAlloc _, PIns _ o => newTracker x2 o | _, _ => x2 end, p', ob).

(** Threads: where they are, and the packet their call is about; the packet of
    fragGetValueOrStore is in the call itself. *)
Record aworld := mkAW { aw_sys : asys; aw_pcs : list (pc * list Z) }.
Inductive alabel := AThread (i : Z) (c : call) (data : list Z) (starved : bool) | AStats (i now : Z).
Definition astart (g : conf) (size threads : nat) : aworld := mkAW (asmCreate g size) (repeat (Idle, []) threads).
Definition awstep (g : conf) (w : aworld) (l : alabel) : option (outcome (aworld * list obs)) :=
  match l with
  | AThread i c d starved =>
      match znth (aw_pcs w) i with
      | None => None
      | Some (p, d0) =>
          let data := match p with Idle => d | _ => d0 end in
          Some (do y <- atstep g (aw_sys w) p data c starved;
                let '(x, p', ob) := y in Ok (mkAW x (zupd (aw_pcs w) i (p', data)), ob))
      end
  | AStats i now =>
      let s := a_sys (aw_sys w) in
      if (0 <=? i) && (i <? zlen (t_buckets (s_ct s))) then
        Some (do y <- gc_bucket s i now;
              let '(s', ob) := y in
              let x := mkA s' (a_pool (aw_sys w)) (a_trk (aw_sys w)) (a_frags (aw_sys w)) in
              let fr := match aget (t_buckets (s_ct s)) i with
                        | Ok b => let '(_, ev, _, _) := bucketGC b now in freed_data ev
                        | _ => []
                        end in
              Ok (mkAW (endAll x fr) (aw_pcs w), ob))
      else None
  end.

(** A call executed without interruption *)
Fixpoint afinish (n : nat) (g : conf) (x : asys) (p : pc) (data : list Z) (c : call) : outcome (asys * list obs) :=
  match n with
  | O => Fuel
  | S n =>
      do y <- atstep g x p data c false;
      let '(x1, p1, ob1) := y in
      match p1 with
      | Idle => Ok (x1, ob1)
      | _ => do z <- afinish n g x1 p1 data c; let '(x2, ob2) := z in Ok (x2, ob1 ++ ob2)
      end
  end.
Definition acall (g : conf) (x : asys) (c : call) (data : list Z) : outcome (asys * list obs) :=
  afinish 12 g x Idle data c.
