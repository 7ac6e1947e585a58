(** Load-balancing with flows, src/nfqlb/cmdFlowLb.c: the load-balancer objects
    (one per target, counted references), the flow commands and the packet
    handler, executed by any number of packet threads and the flow thread.

    A program is a sequence of atomic steps; between two steps any other
    thread (or process, for shared memory) may run.  One step is: one call
    of the flow library with the lock call-backs it makes (the flow set is
    locked meanwhile), one critical section of lblistLock, one atomic
    operation on a reference counter, one read of a shared table, one call
    of the fragment table, the release of an object.  Memory is sequentially
    consistent.

    Simplifications: addresses of released objects are not given to new ones,
    so every use of a released object is seen as such; the fragment table is
    called by one thread at a time (its own interleavings are in
    Frag_Model.v); trace flows and the texts printed by "list" are left out;
    the reply to an invalid match has no details; malloc and strdup do not
    fail (else die). *)
From Coq Require Import String.
From Verif Require Import Base Cstr_Model IpKey_Model Maglev_Model Rangeset_Model Flow_Model Remote_Model.
From Verif Require Frag_Model.

(** struct LoadBalancer, cmdFlowLb.c:52-59.  [lb_region] is the shared memory
    that is mapped; a released object keeps its slot. *)
Record lbo := mkLb { lb_target : chars; lb_ref : Z; lb_region : Z; lb_freed : bool }.

(** cmdFlowLb.c:68-79 and what is outside the process: [t_shm] names shared
    memory objects, [t_mem] is their contents, [t_tun] the packets written
    to the tun device.  The object with address a is number a-1 of [t_objs]. *)
Record state := mkSt {
  t_objs : list lbo; t_list : list Z; t_set : list frec; t_ft : Frag_Model.sys;
  t_shm : chars -> option Z; t_mem : Z -> mag; t_tun : list (list Z) }.
Definition set_objs (s : state) (o : list lbo) := mkSt o (t_list s) (t_set s) (t_ft s) (t_shm s) (t_mem s) (t_tun s).
Definition set_list (s : state) (l : list Z) := mkSt (t_objs s) l (t_set s) (t_ft s) (t_shm s) (t_mem s) (t_tun s).
Definition set_flows (s : state) (f : list frec) := mkSt (t_objs s) (t_list s) f (t_ft s) (t_shm s) (t_mem s) (t_tun s).
Definition set_ft (s : state) (f : Frag_Model.sys) (tun : list (list Z)) :=
  mkSt (t_objs s) (t_list s) (t_set s) f (t_shm s) (t_mem s) (t_tun s ++ tun).
Definition set_env (s : state) (shm : chars -> option Z) (mem : Z -> mag) :=
  mkSt (t_objs s) (t_list s) (t_set s) (t_ft s) shm mem (t_tun s).

(** The object at an address; None: NULL or released *)
Definition deref (s : state) (a : Z) : option lbo :=
  match znth (t_objs s) (a - 1) with
  | Some o => if lb_freed o then None else Some o
  | None => None
  end.
Definition put (s : state) (a : Z) (o : lbo) : state := set_objs s (zupd (t_objs s) (a - 1) o).

(** What a program ends with: the handler's result, or the reply *)
Inductive answer := Verdict (fw : Z) | Reply (msg : string).

(** What a step did to a load-balancer object: a reference was taken or given
    back, the object was released *)
Inductive event := Took (a : Z) | Gave (a : Z) | Released (a : Z).

(** The steps that matter to the specification: the search for a target, and
    the release of a flow's object because the flow gets another target *)
Inductive label := Quiet | Find (t : chars) | Retarget.

(** Programs.  [BadUse] is the use of a released object or of NULL as one,
    [Stop] any other undefined behaviour, failed assertion or die(). *)
Inductive prog := Ret (r : answer) | Act (l : label) (f : state -> result)
with result := Next (ev : list event) (s : state) (p : prog) | BadUse | Stop.

Definition stop : prog := Act Quiet (fun _ => Stop).

(** loadbalancerLock, cmdFlowLb.c:378-382; refCounter is an int, atomic
    operations wrap around *)
Definition lockRef (s : state) (a : Z) : option state :=
  match deref s a with
  | None => None
  | Some o => Some (put s a (mkLb (lb_target o) (s32 (lb_ref o + 1)) (lb_region o) (lb_freed o)))
  end.

(** The unlinking, cmdFlowLb.c:392-405: the elements walked over are read *)
Fixpoint unlink (s : state) (l : list Z) (a : Z) : option (list Z) :=
  match l with
  | [] => Some []
  | x :: r =>
      match deref s x with
      | None => None
      | Some _ => if x =? a then Some r
                  else match unlink s r a with None => None | Some r' => Some (x :: r') end
      end
  end.

(** loadbalancerRelease, cmdFlowLb.c:383-417 *)
Definition release (l : label) (a : Z) (k : prog) : prog :=
  if a =? 0 then k
  else Act l (fun s =>
    match deref s a with
    | None => BadUse
    | Some o =>
        let r := s32 (lb_ref o - 1) in
        let s' := put s a (mkLb (lb_target o) r (lb_region o) (lb_freed o)) in
        if r <? 0 then Stop
        else if r =? 0 then
          Next [Gave a] s' (Act Quiet (fun s =>
            match deref s a, unlink s (t_list s) a with
            | Some _, Some l' =>
                Next [] (set_list s l') (Act Quiet (fun s =>
                  match deref s a with
                  | None => BadUse
                  | Some o => Next [Released a] (put s a (mkLb (lb_target o) (lb_ref o) (lb_region o) true)) k
                  end))
            | _, _ => BadUse
            end))
        else Next [Gave a] s' k
    end).

(** The search, cmdFlowLb.c:426-434: every element walked over is read *)
Inductive found := Broken | Absent | At (a : Z).
Fixpoint search (s : state) (l : list Z) (t : chars) : found :=
  match l with
  | [] => Absent
  | x :: r =>
      match deref s x with
      | None => Broken
      | Some o => if streq (lb_target o) t then At x else search s r t
      end
  end.

(** loadbalancerFindOrCreate, cmdFlowLb.c:419-460 *)
Definition findOrCreate (t : option chars) (k : Z -> prog) : prog :=
  match t with
  | None => k 0
  | Some t =>
      Act (Find t) (fun s =>
        match search s (t_list s) t with
        | Broken => BadUse
        | At a => match lockRef s a with None => BadUse | Some s' => Next [Took a] s' (k a) end
        | Absent =>
            match t_shm s t with
            | None => Next [] s (k 0)
            | Some r =>
                let a := zlen (t_objs s) + 1 in
                Next [Took a] (set_list (set_objs s (t_objs s ++ [mkLb t 1 r false])) (a :: t_list s)) (k a)
            end
        end)
  end.

(** ** Commands *)

(** The arguments of flowDefine in cmd_set, cmdFlowLb.c:632-635 *)
Definition cmdArgs (c : flowcmd) (name : chars) (ref : Z) : fargs :=
  mkArgs name (c_priority c) ref (c_protocols c) (c_dports c) (c_sports c) (c_dsts c) (c_srcs c)
    (c_match c) (c_udpencap c).
(** ... and of the flow for the encapsulating udp, 617-625 *)
Definition udpArgs (c : flowcmd) (name : chars) : fargs :=
  mkArgs (35 :: name) (c_priority c) 0 (Some [str "udp"]) (Some (dec (c_udpencap c))) None
    (c_dsts c) (c_srcs c) None (c_udpencap c).

(** One call of flowDefine *)
Definition define (L : libc) (a : fargs) (k : prog) : prog :=
  Act Quiet (fun s =>
    match flowDefine L (t_set s) a with
    | Ok (None, set) => Next [] (set_flows s set) k
    | Ok (Some e, set) => Next [] (set_flows s set) (Ret (Reply e))
    | _ => Stop
    end).

(** The second half of cmd_set, cmdFlowLb.c:596-639, with the object at [lb].
    A name of 1022 characters or more leaves udpname unterminated. *)
Definition setFlow (L : libc) (c : flowcmd) (lb : Z) : prog :=
  if lb =? 0 then Ret (Reply "FAIL: Couldn't create load-balancer")
  else
    match c_name c with
    | None => stop
    | Some n =>
        let main := define L (cmdArgs c n lb) (Ret (Reply "OK")) in
        if c_udpencap c =? 0 then main
        else
          match c_protocols c with
          | Some [] => stop
          | Some [p] =>
              if caseeq p (str "sctp")
              then if 1021 <? zlen n then stop else define L (udpArgs c n) main
              else Ret (Reply "FAIL: only sctp for updencap")
          | _ => Ret (Reply "FAIL: only sctp for updencap")
          end
    end.

(** cmd_set, cmdFlowLb.c:570-640 *)
Definition cmd_set (L : libc) (c : flowcmd) : prog :=
  let fresh := findOrCreate (c_target c) (setFlow L c) in
  Act Quiet (fun s =>
    match c_name c with
    | None => match t_set s with [] => Next [] s fresh | _ => Stop end
    | Some n =>
        match findName (t_set s) n with
        | None => Next [] s fresh
        | Some f =>
            match lockRef s (f_ref f) with
            | None => BadUse
            | Some s' =>
                let lb := f_ref f in
                Next [Took lb] s' (release Quiet lb (
                  if negb (f_udpencap f =? c_udpencap c) then Ret (Reply "FAIL: Alter udpencap not allowed")
                  else match c_target c with
                  | None => stop
                  | Some t =>
                      Act Quiet (fun s =>
                        match deref s lb with
                        | None => BadUse
                        | Some o =>
                            if streq t (lb_target o) then Next [] s (setFlow L c lb)
                            else Next [] s (findOrCreate (Some t) (fun new =>
                              if new =? 0 then Ret (Reply "FAIL: Couldn't create new load-balancer")
                              else release Retarget lb (setFlow L c new)))
                        end)
                  end))
            end
        end
    end).

(** cmd_delete, cmdFlowLb.c:642-662 *)
Definition cmd_delete (c : flowcmd) : prog :=
  match c_name c with
  | None => Ret (Reply "FAIL: no name")
  | Some n =>
      Act Quiet (fun s =>
        let (f, set) := flowDelete (t_set s) n in
        let ref := match f with None => 0 | Some f => f_ref f end in
        let ue := match f with None => 0 | Some f => f_udpencap f end in
        Next [] (set_flows s set) (release Quiet ref (
          if 0 <? ue then
            if 1021 <? zlen n then stop
            else Act Quiet (fun s => Next [] (set_flows s (snd (flowDelete (t_set s) (35 :: n)))) (Ret (Reply "OK")))
          else Ret (Reply "OK"))))
  end.

(** "list", cmdFlowLb.c:545-553, flow.c:587-610: the target of every flow that
    is printed is read (lb2string, 476-482) *)
Definition printed (set : list frec) (name : option chars) : list frec :=
  match name with
  | None => set
  | Some n => match findName set n with None => [] | Some f => [f] end
  end.
Definition cmd_list (c : flowcmd) : prog :=
  Act Quiet (fun s =>
    if forallb (fun f => (f_ref f =? 0) || match deref s (f_ref f) with None => false | Some _ => true end)
         (printed (t_set s) (c_name c))
    then Next [] s (Ret (Reply "")) else BadUse).

(** The dispatch in flowThread, cmdFlowLb.c:528-565; trace commands do not
    touch the flows *)
Definition command (L : libc) (c : flowcmd) : prog :=
  match c_action c with
  | None => Ret (Reply "FAIL: no action")
  | Some a =>
      if prefix (str "trace-") a then Ret (Reply "")
      else if streq a (str "set") then cmd_set L c
      else if streq a (str "delete") then cmd_delete c
      else if streq a (str "list") then cmd_list c
      else if streq a (str "list-names") then Ret (Reply "")
      else Ret (Reply "FAIL: action unknown")
  end.

(** ** Packets *)

(** Options, cmdFlowLb.c:239-345.  [h_tier] is the shared memory of the LB
    tier and slb->ownFwmark, [h_tun] whether there is a tun device, [h_trace]
    whether a trace line with the target is written. *)
Record hconf := mkH {
  h_ping : bool; h_mode : Z; h_notargets : Z; h_nolb : Z; h_tier : option (Z * Z);
  h_frag : Frag_Model.conf; h_tun : bool; h_trace : bool; h_lib : libc }.

(** lookup[hash % M] and active[] of a shared table that is read through
    [reg], which gives None if the object that maps it was released *)
Definition readTable (reg : state -> option Z) (hash : Z) (k : Z -> prog) : prog :=
  Act Quiet (fun s =>
    match reg s with
    | None => BadUse
    | Some r =>
        if mM (t_mem s r) =? 0 then Stop
        else match aget (mlookup (t_mem s r)) (hash mod mM (t_mem s r)) with
        | Ok i =>
            if i <? 0 then Next [] s (k i)
            else Next [] s (Act Quiet (fun s =>
              match reg s with
              | None => BadUse
              | Some r => match aget (mactive (t_mem s r)) i with Ok fw => Next [] s (k fw) | _ => Stop end
              end))
        | _ => Stop
        end
    end).
Definition lbRegion (a : Z) (s : state) : option Z :=
  match deref s a with None => None | Some o => Some (lb_region o) end.

(** Result and value a call of the fragment table returned, fragments it
    handed back *)
Definition retOf (ob : list Frag_Model.obs) : option (Z * option Z) :=
  fold_left (fun r o => match o with Frag_Model.Returned _ rc v => Some (rc, v) | _ => r end) ob None.
Definition handedOf (ob : list Frag_Model.obs) : list (list Z) :=
  flat_map (fun o => match o with Frag_Model.Handed _ l => map Frag_Model.f_data l | _ => [] end) ob.

(** One call of flowLookup, with the lock call-back; [u] is the value of
    udpencap before *)
Definition lookup (h : hconf) (k : key) (eth : Z) (data : list Z) (u : Z) (kont : Z -> Z -> prog) : prog :=
  Act Quiet (fun s =>
    match flowLookup (h_ping h) (t_set s) k eth (Some data) u with
    | Ok (a, u') =>
        if a =? 0 then Next [] s (kont 0 u')
        else match lockRef s a with None => BadUse | Some s' => Next [Took a] s' (kont a u') end
    | _ => Stop
    end).

(** First fragment, cmdFlowLb.c:201-213; injectFrag, 81-91 *)
Definition firstFragment (h : hconf) (now : Z) (done : bool) (k : key) (fi : option (list Z)) (fw : Z) : prog :=
  match fi with
  | None => stop
  | Some id =>
      Act Quiet (fun s =>
        match Frag_Model.call_op (h_frag h) (t_ft s) (Frag_Model.CFirst now (key_bytes (with_id k id)) fw true) done with
        | Ok (ft, ob) =>
            match retOf ob with
            | None => Stop
            | Some (rc, _) =>
                Next [] (set_ft s ft (if h_tun h then handedOf ob else []))
                  (Ret (Verdict (if rc =? 0 then fw else -1)))
            end
        | _ => Stop
        end)
  end.

(** The target is named in a trace line after the object was given back,
    cmdFlowLb.c:191-199 *)
Definition traceTarget (h : hconf) (a : Z) (k : prog) : prog :=
  if h_trace h then Act Quiet (fun s => match deref s a with None => BadUse | Some _ => Next [] s k end) else k.

(** cmdFlowLb.c:177-230: the object is locked *)
Definition forward (h : hconf) (now : Z) (done : bool) (rc : Z) (k : key) (fi : option (list Z)) (a : Z) : prog :=
  if a =? 0 then Ret (Verdict (h_nolb h))
  else readTable (lbRegion a) (hashKey k (h_mode h)) (fun fw =>
    release Quiet a (traceTarget h a (
      if fw <? 0 then Ret (Verdict (h_notargets h))
      else if Z.land rc 1 =? 0 then Ret (Verdict fw)
      else firstFragment h now done k fi fw))).

(** cmdFlowLb.c:133-175 *)
Definition classify (h : hconf) (now : Z) (done : bool) (eth : Z) (data : list Z) (rc : Z) (k : key) (fi : option (list Z)) : prog :=
  lookup h k eth data 0 (fun a u =>
    if (kproto k =? 17) && (kdport k =? u) then
      match getHashKey (S (length data)) u eth data with
      | Ok None => Ret (Verdict (-1))
      | Ok (Some (rc', k', fi')) =>
          lookup h k' eth data 0 (fun a' _ =>
            forward h now done rc' k' (match fi' with None => fi | _ => fi' end) a')
      | _ => stop
      end
    else forward h now done rc k fi a).

(** Other fragments, cmdFlowLb.c:119-130 *)
Definition otherFragment (h : hconf) (now : Z) (done : bool) (k : key) (data : list Z) : prog :=
  Act Quiet (fun s =>
    match Frag_Model.call_op (h_frag h) (t_ft s) (Frag_Model.CStore now (key_bytes k) data) done with
    | Ok (ft, ob) =>
        match retOf ob with
        | Some (0, Some v) => Next [] (set_ft s ft []) (Ret (Verdict v))
        | Some (0, None) => Stop
        | Some (_, _) => Next [] (set_ft s ft []) (Ret (Verdict (-1)))
        | None => Stop
        end
    | _ => Stop
    end).

(** The LB tier, cmdFlowLb.c:107-117 *)
Definition tier (h : hconf) (k : key) (local : prog) : prog :=
  match h_tier h with
  | None => local
  | Some (r, own) =>
      readTable (fun _ => Some r) (hashKeyAddresses k) (fun fw =>
        if (0 <=? fw) && negb (fw =? own) then Ret (Verdict fw) else local)
  end.

(** packetHandleFn, cmdFlowLb.c:93-231; [now] is what the clock shows and
    [done] whether the reassembler has seen all of the datagram *)
Definition packet (h : hconf) (now : Z) (done : bool) (eth : Z) (data : list Z) : prog :=
  match getHashKey (S (length data)) 0 eth data with
  | Ok None => Ret (Verdict (-1))
  | Ok (Some (rc, k, fi)) =>
      if Z.land rc 3 =? 0 then classify h now done eth data rc k fi
      else tier h k (if Z.land rc 1 =? 0 then otherFragment h now done k data
                     else classify h now done eth data rc k fi)
  | _ => stop
  end.

(** ** Execution *)

(** The process: the flow thread, and the packets being handled *)
Record world := mkW { w_st : state; w_flow : prog; w_pk : list prog }.
Definition idle (p : prog) : bool := match p with Ret _ => true | _ => false end.

(** What happens next: a packet or a command arrives (the flow thread takes
    one at a time), a thread makes a step, another process changes shared
    memory. *)
Inductive move :=
| Arrive (now : Z) (done : bool) (eth : Z) (data : list Z)
| Command (c : flowcmd)
| FlowStep
| PacketStep (i : Z)
| Other (shm : chars -> option Z) (mem : Z -> mag).

Inductive outcomes := Cont (w : world) (ev : list event) | Bad | Halt.

(** None: the move is not possible *)
Definition step (h : hconf) (w : world) (m : move) : option outcomes :=
  match m with
  | Arrive now done eth data => Some (Cont (mkW (w_st w) (w_flow w) (w_pk w ++ [packet h now done eth data])) [])
  | Command c => if idle (w_flow w) then Some (Cont (mkW (w_st w) (command (h_lib h) c) (w_pk w)) []) else None
  | FlowStep =>
      match w_flow w with
      | Ret _ => None
      | Act _ f =>
          Some (match f (w_st w) with
                | Next ev s p => Cont (mkW s p (w_pk w)) ev
                | BadUse => Bad
                | Stop => Halt
                end)
      end
  | PacketStep i =>
      match znth (w_pk w) i with
      | Some (Act _ f) =>
          Some (match f (w_st w) with
                | Next ev s p => Cont (mkW s (w_flow w) (zupd (w_pk w) i p)) ev
                | BadUse => Bad
                | Stop => Halt
                end)
      | _ => None
      end
  | Other shm mem => Some (Cont (mkW (set_env (w_st w) shm mem) (w_flow w) (w_pk w)) [])
  end.

(** At the start there are no flows and no objects. *)
Definition start (h : hconf) (shm : chars -> option Z) (mem : Z -> mag) : world :=
  mkW (mkSt [] [] [] (Frag_Model.fragTableCreate (h_frag h)) shm mem []) (Ret (Reply "")) [].

(** A program executed without interruption *)
Fixpoint runp (p : prog) (s : state) : option (answer * state * list event) :=
  match p with
  | Ret r => Some (r, s, [])
  | Act _ f => runr (f s)
  end
with runr (r : result) : option (answer * state * list event) :=
  match r with
  | Next ev s p => match runp p s with Some (r, s', ev') => Some (r, s', ev ++ ev') | None => None end
  | _ => None
  end.
