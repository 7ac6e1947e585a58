(** What the statistics should be (C73), and when load-balancers on one host
    do not disturb each other (C74). *)
From Coq Require Import String.
From Verif Require Import Base Cstr_Model IpKey_Model Rangeset_Spec Conntrack_Model Conntrack_Spec Frag_Model Print_Spec Stats_Model.

(** ** The counters as JSON *)
Definition stats_ok (f : fstats) : Prop :=
  Forall is_u32 [z_size f; z_collisions f; z_inserts f; z_rejected f; z_lookups f; z_objGC f; z_mtu f; z_bucketsMax f; z_bucketsAllocated f;
                 z_bucketsUsed f; z_fragsMax f; z_fragsAllocated f; z_fragsDiscarded f; z_reAssembled f].
Definition num (n : string) (v : Z) : chars * json := (str n, JNum v).
Definition stats_object (f : fstats) (millis : Z) : json :=
  JObj [num "hsize" (z_size f); num "ttlMillis" millis; num "collisions" (z_collisions f); num "inserts" (z_inserts f);
        num "rejected" (z_rejected f); num "lookups" (z_lookups f); num "objGC" (z_objGC f); num "mtu" (z_mtu f);
        num "bucketsMax" (z_bucketsMax f); num "bucketsAllocated" (z_bucketsAllocated f); num "bucketsUsed" (z_bucketsUsed f);
        num "fragsMax" (z_fragsMax f); num "fragsAllocated" (z_fragsAllocated f); num "fragsDiscarded" (z_fragsDiscarded f);
        num "reAssembled" (z_reAssembled f)].

(** ** What happened to a table *)
Definition lookups (ops : list cop) : Z := zlen (filter (fun o => match o with OLookup _ _ => true | _ => false end) ops).
Definition inserts (ops : list cop) : Z := zlen (filter (fun o => match o with OInsert _ _ _ d _ => negb (d =? 0) | _ => false end) ops).
(** Insertions that were refused *)
Fixpoint refusals (ops : list cop) (vs : list Z) : Z :=
  match ops, vs with
  | OInsert _ _ _ d _ :: r, v :: vs => (if negb (d =? 0) && (v =? -1) then 1 else 0) + refusals r vs
  | _ :: r, _ :: vs => refusals r vs
  | _, _ => 0
  end.
Definition no_removal (ops : list cop) : Prop := forall now k, ~ In (ORemove now k) ops.

(** ** Several processes *)
Fixpoint ops_of (i : Z) (ls : list hlabel) : list cop :=
  match ls with
  | [] => []
  | HOp j o :: r => if j =? i then o :: ops_of i r else ops_of i r
  | _ :: r => ops_of i r
  end.
Fixpoint answers (i : Z) (res : hres) : list (cop * option Z) :=
  match res with
  | [] => []
  | (j, o, v) :: r => if j =? i then (o, v) :: answers i r else answers i r
  end.
(** The answers of a table that nobody else touches *)
Definition alone (hsize : Z) (ops : list cop) (a : list (cop * option Z)) : Prop :=
  exists t vs ev, crun (ctCreate hsize) ops = Ok (t, vs, ev) /\ a = combine ops (map Some vs).

(** The size of the table of the last load-balancer that was started with the
    statistics n; 0 while one is being started, -1 if they were just truncated *)
Fixpoint size_after (n : chars) (sz : Z) (ls : list hlabel) : Z :=
  match ls with
  | [] => sz
  | HTrunc m :: r => size_after n (if streq n m then -1 else sz) r
  | HZero m :: r => size_after n (if streq n m then 0 else sz) r
  | HReady _ m g :: r => size_after n (if streq n m && negb (sz =? -1) then g_hsize g else sz) r
  | HOp _ _ :: r => size_after n sz r
  end.
(** Process i is not started again. *)
Definition once (i : Z) (ls : list hlabel) : Prop := forall n g, ~ In (HReady i n g) ls.
(** Only process i uses the statistics n. *)
Definition private (i : Z) (n : chars) (h : host) (ls : list hlabel) : Prop :=
  (forall j p, ho_proc h j = Some p -> j <> i -> pr_ft p <> n) /\
  Forall (fun l => match l with HTrunc m | HZero m => m <> n | HReady j m _ => m <> n /\ j <> i | HOp _ _ => True end) ls.

(** An operation that looks for a key: its hash value has the property P. *)
Definition key_hash (o : cop) (P : Z -> Prop) : Prop :=
  match o with
  | OLookup _ k | ORemove _ k => P (djb2 k)
  | OInsert _ k _ d _ => d <> 0 /\ P (djb2 k)
  | OStats _ => False
  end.
Definition uses_key (o : cop) : Prop := key_hash o (fun _ => True).
