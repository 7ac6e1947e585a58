(** Several lb and flowlb processes that are each other's LB tier: README.md:50-60,
    fragments.md:1-12, cmdFlowLb.c:107-117, 284-287, cmdLb.c:64-90, nfqueue.c:45-72.
    Every load-balancer is a process of FlowLb_Model.v or Lb_Model.v with flows,
    targets, threads and a table of its own.

    A packet gets the verdict of the load-balancer it arrived at; a negative
    verdict drops it, another is the mark it leaves with.  The routing rules of
    the hosts are the function [peer]: a mark may lead
    to a load-balancer, and the packet arrives there unchanged; all other
    marks lead to targets.  A fragment the process writes to its tun device
    is a packet that enters again.  Simplifications: packets are not lost
    between load-balancers; a process that fails makes no more steps, the
    others go on. *)
From Coq Require Import String.
From Verif Require Import Base Cstr_Model FlowLb_Model Lb_Model.
From Verif Require Maglev_Model.

(** nfqlb flowlb and nfqlb lb; the options they have in common, and --udpencap of lb *)
Inductive kind := Flow (h : hconf) | Plain (g : lconf).
Definition opts (c : kind) : hconf := match c with Flow h => h | Plain g => l_h g end.
Definition encap (c : kind) : Z := match c with Flow _ => 0 | Plain g => l_encap g end.
(** A step of a load-balancer.  That of lb has no flow thread: [w_flow] stays as it is. *)
Definition plainMove (m : move) : option lmove :=
  match m with
  | Arrive now done eth data => Some (LArrive now done eth data)
  | PacketStep i => Some (LStep i)
  | Other _ mem => Some (LOther mem)
  | Command _ | FlowStep => None
  end.
Definition pstep (c : kind) (w : world) (m : move) : option outcomes :=
  match c with
  | Flow h => step h w m
  | Plain g =>
      match plainMove m with
      | None => None
      | Some l =>
          match lstep g (mkLW (w_st w) (w_pk w)) l with
          | None => None
          | Some (LCont w') => Some (Cont (mkW (lw_st w') (w_flow w) (lw_pk w')) [])
          | Some LBad => Some Bad
          | Some LHalt => Some Halt
          end
      end
  end.
Definition pstart (c : kind) (shm : chars -> option Z) (mem : Z -> Maglev_Model.mag) : world :=
  match c with
  | Flow h => start h shm mem
  | Plain g => mkW (lw_st (lstart g mem)) (Ret (Reply "")) []
  end.

(** Where a packet is: before load-balancer i, packet number n of it, left it
    with mark v for a target, dropped by it *)
Inductive place := Wire (i : Z) | Inside (i n : Z) | Sent (i v : Z) | Gone (i : Z).
(** A packet, and how often a load-balancer passed it to another *)
Record pkt := mkPkt { q_eth : Z; q_data : list Z; q_hops : Z; q_at : place }.
(** The load-balancers, and all packets *)
Record net := mkNet { n_node : Z -> world; n_pk : list pkt }.

(** A packet enters at a load-balancer, one that waits is taken, a process
    makes a step, a packet leaves *)
Inductive nmove :=
| NEnter (i eth : Z) (data : list Z)
| NTake (p now : Z) (done : bool)
| NStep (i : Z) (m : move)
| NLeave (p : Z).

Definition set_node (f : Z -> world) (i : Z) (w : world) : Z -> world := fun j => if j =? i then w else f j.
Definition placed (q : pkt) (hops : Z) (a : place) : pkt := mkPkt (q_eth q) (q_data q) hops a.
(** Where a packet goes that leaves load-balancer [i] with verdict [v],
    nfqueue.c:45-72 *)
Definition route (peer : Z -> option Z) (q : pkt) (i v : Z) : pkt :=
  if v <? 0 then placed q (q_hops q) (Gone i)
  else match peer v with
       | Some j => placed q (q_hops q + 1) (Wire j)
       | None => placed q (q_hops q) (Sent i v)
       end.

(** None: the move is not possible.  [node] tells which load-balancers there are. *)
Definition nstep (H : Z -> kind) (node : Z -> bool) (peer : Z -> option Z) (s : net) (m : nmove) : option net :=
  match m with
  | NEnter i eth data =>
      if node i then Some (mkNet (n_node s) (n_pk s ++ [mkPkt eth data 0 (Wire i)])) else None
  | NTake p now done =>
      match znth (n_pk s) p with
      | Some q =>
          match q_at q with
          | Wire i =>
              match pstep (H i) (n_node s i) (Arrive now done (q_eth q) (q_data q)) with
              | Some (Cont w _) =>
                  Some (mkNet (set_node (n_node s) i w) (zupd (n_pk s) p (placed q (q_hops q) (Inside i (zlen (w_pk (n_node s i)))))))
              | _ => None
              end
          | _ => None
          end
      | None => None
      end
  | NStep i m =>
      match m with
      | Arrive _ _ _ _ => None
      | _ => if node i then match pstep (H i) (n_node s i) m with
                            | Some (Cont w _) => Some (mkNet (set_node (n_node s) i w) (n_pk s))
                            | _ => None
                            end
             else None
      end
  | NLeave p =>
      match znth (n_pk s) p with
      | Some q =>
          match q_at q with
          | Inside i n =>
              match znth (w_pk (n_node s i)) n with
              | Some (Ret (Verdict v)) => Some (mkNet (n_node s) (zupd (n_pk s) p (route peer q i v)))
              | _ => None
              end
          | _ => None
          end
      | None => None
      end
  end.

(** At the start there are no packets. *)
Definition nstart (H : Z -> kind) (shm : Z -> chars -> option Z) (mem : Z -> Z -> Maglev_Model.mag) : net :=
  mkNet (fun i => pstart (H i) (shm i) (mem i)) [].
