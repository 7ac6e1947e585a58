(** The addresses of the servers on a host: parseAddress (src/lib/iputils.c:464-510),
    the trace server (src/lib/log.c:82-96, 142-146; cmdLb.c:165, cmdFlowLb.c:282), the
    flow server (cmdFlowLb.c:345-347, 484-500), and their clients (remoteCmd.c:87-103,
    cmdTrace.c:38-84), with any number of processes in one network namespace.

    A step is a system call of a server thread (bind with what comes before it, and
    listen), a start, a connect or an end; the threads of a process go on
    independently.  Simplifications: sockets can be made; a server that listens
    accepts; a client is seen up to its connect; the other reasons to end (tables,
    mtu; Start_Model.v) are [LKill]. *)
From Coq Require Import String.
From Verif Require Import Base Cstr_Model Opt_Model Fwmark_Model.

(** getaddrinfo, and the kernel's rules for TCP: whether an address cannot be bound
    beside one that is bound, and whether a connect to an address arrives at a
    socket bound to another (0.0.0.0, for instance) *)
Record net := mkNet { n_gai : chars -> chars -> option (list Z); n_clash : list Z -> list Z -> bool; n_meets : list Z -> list Z -> bool }.

Definition after (p s : chars) : option chars := if streq (firstn (length p) s) p then Some (skipn (length p) s) else None.
(** parseAddress, iputils.c:464-510.  None is -1, otherwise the first *len bytes of
    the caller's struct sockaddr_storage, which has 128.  A name is copied behind
    family and a NUL, with its own NUL (503). *)
Definition parseAddress (N : net) (s : chars) : outcome (option (list Z)) :=
  match after (str "tcp:") s with
  | Some r => match parseTcp (n_gai N) r with None => Ok None | Some b => if 128 <? zlen b then UB else Ok (Some b) end
  | None =>
      match after (str "unix:") s with
      | Some n => if 128 <? 3 + zlen n + 1 then UB else Ok (Some ([1; 0; 0] ++ n))
      | None => Ok None
      end
  end.

(** The kernel: abstract names are compared whole; struct sockaddr_un has 110 bytes *)
Definition isUnix (a : list Z) : bool := match a with 1 :: 0 :: _ => true | _ => false end.
Definition clash (N : net) (a b : list Z) : bool := if isUnix a || isUnix b then streq a b else n_clash N a b.
Definition meets (N : net) (a b : list Z) : bool := if isUnix a || isUnix b then streq a b else n_meets N a b.
Definition tooLong (a : list Z) : bool := isUnix a && (110 <? zlen a).

Inductive srv := TraceServer | FlowServer.
Definition srvEq (a b : srv) : bool := match a, b with TraceServer, TraceServer | FlowServer, FlowServer => true | _, _ => false end.
(** A server thread: there is none, it has its address, it is bound, it accepts *)
Inductive tstate := NoThread | Begins (t : chars) | Bound (a : list Z) | Serves (a : list Z).
Record sock := mkSock { k_proc : Z; k_srv : srv; k_addr : list Z; k_listens : bool }.
(** The load-balancers that run, and the sockets that are bound *)
Record aworld := mkA { a_thr : Z -> option (srv -> tstate); a_socks : list sock }.
Definition noOne : aworld := mkA (fun _ => None) [].

(** What is seen: a load-balancer starts with these addresses; it is ended from
    outside; it dies (exit(EXIT_FAILURE)); undefined behaviour; client c with this
    address is connected to a server of k, or is not *)
Inductive aev :=
| Began (k : Z) (trace : chars) (flow : option chars) | Killed (k : Z) | Died (k : Z) | Crashed (k : Z)
| Reached (c : Z) (t : chars) (k : Z) (s : srv) | NotReached (c : Z) (t : chars) | ClientCrashed (c : Z) (t : chars).

Inductive alabel :=
| LLb (k : Z) (ws : list chars)                          (* nfqlb lb ... *)
| LFlowLb (k : Z) (env : option chars) (ws : list chars) (* nfqlb flowlb ..., $NFQLB_FLOW_ADDRESS *)
| LThread (k : Z) (s : srv)                              (* the next step of a server *)
| LBindFails (k : Z) (s : srv)                           (* TCP: bind fails for other reasons *)
| LFlowClient (c : Z) (env : option chars)               (* nfqlb flow-set, ...: connectToLb *)
| LTraceClient (c : Z) (ws : list chars)                 (* nfqlb trace ... *)
| LKill (k : Z).

Definition setThr (f : Z -> option (srv -> tstate)) (k : Z) (v : option (srv -> tstate)) : Z -> option (srv -> tstate) :=
  fun i => if i =? k then v else f i.
Definition setSrv (f : srv -> tstate) (s : srv) (v : tstate) : srv -> tstate := fun x => if srvEq x s then v else f x.
(** The end of a process closes its sockets. *)
Definition gone (w : aworld) (k : Z) : aworld := mkA (setThr (a_thr w) k None) (filter (fun x => negb (k_proc x =? k)) (a_socks w)).

(** nfqlb.h:42 *)
Definition flowAddress (env : option chars) : chars := match env with None => str "unix:nfqlb" | Some t => t end.
(** The value of --trace_address, the option at this place of the table *)
Definition traceAddress (opts : list opt) (i : Z) (ws : list chars) : option chars :=
  match parseOptions opts ws with
  | Ok (Parsed vals _) => match znth vals i with Some v => v | None => None end
  | _ => None
  end.

Definition begins (w : aworld) (k : Z) (trace : option chars) (flow : option chars) : option (aworld * list aev) :=
  match a_thr w k, trace with
  | None, Some t =>
      Some (mkA (setThr (a_thr w) k (Some (fun s => match s, flow with TraceServer, _ => Begins t | FlowServer, Some f => Begins f | FlowServer, None => NoThread end))) (a_socks w),
            [Began k t flow])
  | _, _ => None
  end.

(** socket, bind and listen of a server, log.c:88-96, cmdFlowLb.c:492-500 *)
Definition threadStep (N : net) (w : aworld) (k : Z) (s : srv) : option (aworld * list aev) :=
  match a_thr w k with
  | None => None
  | Some f =>
      match f s with
      | Begins t =>
          match parseAddress N t with
          | Ok (Some a) =>
              if tooLong a || existsb (fun x => clash N a (k_addr x)) (a_socks w) then Some (gone w k, [Died k])
              else Some (mkA (setThr (a_thr w) k (Some (setSrv f s (Bound a)))) (mkSock k s a false :: a_socks w), [])
          | Ok None => Some (gone w k, [Died k])
          | _ => Some (gone w k, [Crashed k])
          end
      | Bound a =>
          Some (mkA (setThr (a_thr w) k (Some (setSrv f s (Serves a))))
                    (map (fun x => if (k_proc x =? k) && srvEq (k_srv x) s then mkSock k s a true else x) (a_socks w)), [])
      | _ => None
      end
  end.
Definition connects (N : net) (w : aworld) (c : Z) (t : chars) : list aev :=
  match parseAddress N t with
  | Ok (Some a) =>
      match find (fun x => k_listens x && meets N a (k_addr x)) (a_socks w) with
      | Some x => [Reached c t (k_proc x) (k_srv x)]
      | None => [NotReached c t]
      end
  | Ok None => [NotReached c t]
  | _ => [ClientCrashed c t]
  end.

Definition astep (N : net) (w : aworld) (l : alabel) : option (aworld * list aev) :=
  match l with
  | LLb k ws => begins w k (traceAddress lbOpts 16 ws) None
  | LFlowLb k env ws => begins w k (traceAddress flowlbOpts 16 ws) (Some (flowAddress env))
  | LThread k s => threadStep N w k s
  | LBindFails k s =>
      match a_thr w k with
      | Some f =>
          match f s with
          | Begins t => match parseAddress N t with Ok (Some a) => if isUnix a then None else Some (gone w k, [Died k]) | _ => None end
          | _ => None
          end
      | None => None
      end
  | LFlowClient c env => Some (w, connects N w c (flowAddress env))
  | LTraceClient c ws => match traceAddress traceOpts 3 ws with Some t => Some (w, connects N w c t) | None => None end
  | LKill k => match a_thr w k with Some _ => Some (gone w k, [Killed k]) | None => None end
  end.
