(** The locks that the threads of lb and flowlb take and let go.  Only the
    operations on locks, and the places where a thread waits for a client, are
    modelled; a branch may go either way and a loop may run any number of
    times, whatever the data.  The model so has every run of the code and some
    more. *)
From Verif Require Import Base.

(** The item pools: FragData and fragment pool, bucket pool of the table,
    fragutils.c:205-210; holes of the reassembler, reassembler.c:128 *)
Inductive pool := FragDatas | Fragments | Buckets | Holes.
(** The mutex of a FragData object, fragutils.c:63; of a bucket, conntrack.c:39;
    of an item pool, itempool.c:24; the read-write lock of the flows or of the
    trace flows, flow.c:53-58; lblistLock, cmdFlowLb.c:76; tlock, log.c:23 *)
Inductive lock := Entry (f : Z) | Bucket (b : Z) | Pool (p : pool) | Flows (tr : bool) | LbList | Trace.
(** What a thread waits for a client to do: the trace client reads, it leaves
    (log.c:122), the client of the flow thread sends (cmdFlowLb.c:526) or reads *)
Inductive client := TraceReads | TraceLeaves | FlowReads.
(** pthread_mutex_lock and pthread_rwlock_wrlock; pthread_rwlock_rdlock; unlock *)
Inductive lop := Acq (l : lock) | Shared (l : lock) | Rel (l : lock) | Client (c : client).

(** Behaviours: sequences, branches, loops, some value *)
Inductive beh := Skip | Op (o : lop) | Seq (a b : beh) | Alt (a b : beh) | Star (a : beh) | Any (f : Z -> beh).
Declare Scope beh_scope.
Notation "a ;; b" := (Seq a b) (at level 60, right associativity) : beh_scope.
Notation "a <|> b" := (Alt a b) (at level 62, right associativity) : beh_scope.
Open Scope beh_scope.
(** The operations of one run *)
Inductive runs : beh -> list lop -> Prop :=
| r_skip : runs Skip []
| r_op : forall o, runs (Op o) [o]
| r_seq : forall a b x y, runs a x -> runs b y -> runs (a ;; b) (x ++ y)
| r_left : forall a b x, runs a x -> runs (a <|> b) x
| r_right : forall a b x, runs b x -> runs (a <|> b) x
| r_stop : forall a, runs (Star a) []
| r_more : forall a x y, runs a x -> runs (Star a) y -> runs (Star a) (x ++ y)
| r_any : forall f z x, runs (f z) x -> runs (Any f) x.

Definition lck (l : lock) : beh := Op (Acq l).
Definition unl (l : lock) : beh := Op (Rel l).
Definition maybe (b : beh) : beh := Skip <|> b.

(** ** itempool.c:109-150 *)
Definition itemAllocate (p : pool) : beh := lck (Pool p) ;; unl (Pool p).
Definition itemFree (p : pool) : beh := Skip <|> (lck (Pool p) ;; unl (Pool p)).
Definition itemAllocateWithNext (p : pool) : beh := itemAllocate p ;; maybe (itemFree p).

(** ** reassembler.c:49-70, 220-283 *)
Definition raNew : beh := itemAllocate Holes ;; maybe (itemAllocateWithNext Holes).
Definition raDestroy : beh := maybe (itemFree Holes).
Definition raHandleFragment : beh := Star (itemFree Holes <|> itemAllocate Holes).

(** ** log.c:27-63 with the macros of log.h:35-43 *)
Definition tracef : beh := lck Trace ;; (unl Trace <|> (Op (Client TraceReads) ;; unl Trace)).
Definition trace : beh := maybe tracef.
Definition logp : beh := maybe (lck Trace ;; (unl Trace <|> (Op (Client TraceReads) ;; unl Trace))).

(** ** fragutils.c *)
(** fragDataUnlock, 79-103 *)
Definition fragDataUnlock : beh := Skip <|> (itemFree Fragments ;; maybe raDestroy ;; itemFree FragDatas).
(** bucketPoolAllocate and bucketPoolFree, 156-174: call-backs of the table *)
Definition bucketPoolAllocate : beh := itemAllocate Buckets.
Definition bucketPoolFree : beh := itemFree Buckets.

(** ** conntrack.c; the call-back freefn is fragDataUnlock, lockfn takes no lock *)
(** bucketGC, 66-94 *)
Definition bucketGC : beh := maybe fragDataUnlock ;; Star (Skip <|> (maybe fragDataUnlock ;; bucketPoolFree)).
(** ctLookupBucket, 97-121 *)
Definition ctLookupBucket (b : Z) : beh := lck (Bucket b) ;; maybe fragDataUnlock ;; maybe bucketGC.
(** ctLookup, 159-177 *)
Definition ctLookup (b : Z) : beh := ctLookupBucket b ;; (unl (Bucket b) <|> unl (Bucket b)).
(** ctInsertWithTTL, 178-228 *)
Definition ctInsert (b : Z) : beh :=
  Skip <|> (ctLookupBucket b ;;
    (unl (Bucket b) <|>
     unl (Bucket b) <|>
     (bucketPoolAllocate ;; (unl (Bucket b) <|> unl (Bucket b))))).
(** ctRemove, 235-262 *)
Definition ctRemove (b : Z) : beh :=
  ctLookupBucket b ;;
  ((maybe fragDataUnlock ;; unl (Bucket b)) <|>
   (maybe (maybe fragDataUnlock ;; bucketPoolFree) ;; unl (Bucket b))).
(** ctStats, 266-279 *)
Definition ctStats : beh := Star (Any (fun b => lck (Bucket b) ;; bucketGC ;; unl (Bucket b))).

(** fragDataLookup, fragutils.c:110-154 *)
Definition fragDataLookup (b : Z) : beh :=
  ctLookup b ;;
  maybe (itemAllocate FragDatas ;;
    maybe (maybe raNew ;; ctInsert b ;; (Skip <|> (fragDataUnlock ;; ctLookup b) <|> fragDataUnlock))).
(** fragInsertFirst, 266-308 *)
Definition fragInsertFirst (b : Z) : beh :=
  fragDataLookup b ;;
  maybe (Any (fun f =>
    lck (Entry f) ;; maybe raHandleFragment ;;
    ((unl (Entry f) ;; fragDataUnlock) <|>
     (unl (Entry f) ;; fragDataUnlock ;; maybe (itemFree Fragments))))).
(** fragGetValue, 310-325 *)
Definition fragGetValue (b : Z) : beh := ctLookup b ;; (Skip <|> fragDataUnlock <|> fragDataUnlock).
(** fragGetValueOrStore, 327-439 *)
Definition fragGetValueOrStore (b : Z) : beh :=
  fragDataLookup b ;;
  maybe (Any (fun f =>
    maybe (lck (Entry f) ;;
           maybe ((raHandleFragment ;; maybe (ctRemove b)) <|> raDestroy) ;;
           unl (Entry f)) ;;
    (fragDataUnlock <|> fragDataUnlock <|> fragDataUnlock <|>
     (itemAllocate Fragments ;;
      ((lck (Entry f) ;; unl (Entry f) ;; fragDataUnlock ;; itemFree Fragments) <|>
       (lck (Entry f) ;; unl (Entry f) ;; maybe (itemFree Fragments) ;; fragDataUnlock)))))).
(** injectFrag, cmdFlowLb.c:81-91, cmdLb.c:40-50 *)
Definition injectFrag : beh := (trace ;; maybe logp) <|> trace.
(** handleFirstFragment, fragutils.c:453-474 *)
Definition handleFirstFragment (b : Z) : beh :=
  fragInsertFirst b ;; (itemFree Fragments <|> maybe (maybe (Star injectFrag) ;; itemFree Fragments)).
(** fragGetStats, 480-488 *)
Definition fragGetStats : beh := ctStats.

(** ** flow.c; the call-back lock_user_ref takes no lock *)
(** flowDefine, 277-307: what is wrong is found before the lock is taken *)
Definition flowDefine (tr : bool) : beh := Skip <|> (lck (Flows tr) ;; unl (Flows tr)).
(** flowDelete, 315-337 *)
Definition flowDelete (tr : bool) : beh := lck (Flows tr) ;; unl (Flows tr).
(** flowLookupName, 339-356 *)
Definition flowLookupName (tr : bool) : beh := lck (Flows tr) ;; unl (Flows tr).
(** flowLookup, 435-456 *)
Definition flowLookup (tr : bool) : beh := Op (Shared (Flows tr)) ;; (unl (Flows tr) <|> unl (Flows tr)).
(** flowSetPrint, 587-610: prints to the client while it has the lock *)
Definition flowSetPrint (tr : bool) : beh := Op (Shared (Flows tr)) ;; Star (Op (Client FlowReads)) ;; unl (Flows tr).
(** flowSetPrintNames, 612-629 *)
Definition flowSetPrintNames (tr : bool) : beh :=
  Op (Shared (Flows tr)) ;;
  ((unl (Flows tr) ;; Op (Client FlowReads)) <|>
   (Star (Op (Client FlowReads)) ;; unl (Flows tr))).

(** ** cmdFlowLb.c *)
(** loadbalancerRelease, 383-417 *)
Definition loadbalancerRelease : beh := Skip <|> (trace ;; lck LbList ;; unl LbList).
(** loadbalancerFindOrCreate, 419-460: traces while it has the lock *)
Definition loadbalancerFindOrCreate : beh :=
  Skip <|>
  (lck LbList ;;
   ((unl LbList ;; trace) <|>
    (trace ;;
     ((unl LbList ;; trace) <|>
      unl LbList)))).
(** writeReply, 469-474 *)
Definition writeReply : beh := trace ;; Op (Client FlowReads).
(** cmd_set, 596-640 *)
Definition cmdSetDefine : beh :=
  writeReply <|>
  (flowDefine false ;; writeReply) <|>
  (maybe (flowDefine false) ;; flowDefine false ;; writeReply).
(** cmd_set, 570-640 *)
Definition cmdSet : beh :=
  flowLookupName false ;;
  ((loadbalancerRelease ;;
    (writeReply <|>
     (loadbalancerFindOrCreate ;; writeReply) <|>
     (maybe (loadbalancerFindOrCreate ;; loadbalancerRelease) ;; cmdSetDefine))) <|>
   (loadbalancerFindOrCreate ;; cmdSetDefine)).
(** cmd_delete, 642-662 *)
Definition cmdDelete : beh :=
  (flowDelete false ;; loadbalancerRelease ;; maybe (flowDelete false) ;; writeReply) <|> writeReply.
(** traceHandleFlowCmd, 664-697 *)
Definition traceHandleFlowCmd : beh :=
  (flowDefine true ;; maybe writeReply) <|>
  ((flowDelete true ;; writeReply) <|> writeReply) <|>
  (flowSetPrint true ;; Op (Client FlowReads)) <|>
  (flowSetPrintNames true ;; Op (Client FlowReads)) <|>
  writeReply.
(** flowThread, one connection, 505-575 *)
Definition flowRequest : beh :=
  logp ;;
  (logp <|>
   (Op (Client FlowReads) ;;
    (Skip <|> writeReply <|> (writeReply <|> traceHandleFlowCmd) <|> cmdSet <|> cmdDelete <|>
   (writeReply <|> (flowSetPrint false ;; Op (Client FlowReads))) <|>
   (writeReply <|> (flowSetPrintNames false ;; Op (Client FlowReads)))))).
(** packetHandleFn of flowlb, 93-231; [b] is the bucket of the key *)
Definition flowlbPacket (b : Z) : beh :=
  logp <|>
  trace <|>
  (fragGetValueOrStore b ;; (trace <|> trace)) <|>
  (flowLookup false ;;
   maybe (flowLookup true ;; maybe (tracef ;; maybe tracef ;; tracef ;; maybe tracef)) ;;
   ((trace ;; trace ;; logp) <|>
    (maybe (trace ;; flowLookup false ;; maybe trace) ;;
     ((trace ;; logp ;; maybe tracef) <|>
      (loadbalancerRelease ;;
       (maybe tracef <|>
        (maybe tracef ;;
         maybe (trace ;; handleFirstFragment b ;; maybe (trace ;; maybe tracef)) ;;
         maybe (tracef ;; tracef)))))))).
(** packetHandleFn of lb, cmdLb.c:53-115 *)
Definition lbPacket (b : Z) : beh :=
  Skip <|>
  trace <|>
  (fragGetValueOrStore b ;; (trace <|> trace)) <|>
  (Skip <|>
   (maybe (trace ;; handleFirstFragment b ;; maybe trace) ;; trace)).

(** The session of a trace client, log.c:98-138; fclose writes what is left *)
Definition traceSession : beh :=
  logp ;;
  (logp <|>
   (lck Trace ;;
    ((unl Trace ;; logp) <|>
     (unl Trace ;; logp ;; tracef ;; Op (Client TraceLeaves) ;; tracef ;;
      lck Trace ;; Op (Client TraceReads) ;; unl Trace ;; logp)))).

(** What the threads do; a packet thread may also do the other calls of the
    fragment table *)
Inductive call := CFlowlb (b : Z) | CLb (b : Z) | CGetValue (b : Z) | CStats | CFlow | CTrace.
Definition body (c : call) : beh :=
  match c with
  | CFlowlb b => flowlbPacket b
  | CLb b => lbPacket b
  | CGetValue b => fragGetValue b
  | CStats => fragGetStats
  | CFlow => flowRequest
  | CTrace => traceSession
  end.
