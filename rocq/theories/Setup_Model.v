(** Queues of the kernel and the load-balancers that serve them:
    src/lib/nfqueue.c:109-226 (nfqueueRun with the set-up of the queue), the
    threads of cmdLb.c:230-244 and cmdFlowLb.c:354-367, any number of processes.

    The kernel (nfnetlink_queue, since 3.8) is modelled by what it does with the
    messages of the set-up: a queue belongs to the socket that made it, requests
    for queues of others are answered by an error, packets wait in the queue until
    the verdict.  A step is one message sent or received.

    Simplifications: sockets and buffers can be had; a packet's identification is
    never used again; the threads of a process exist from its start; the handler
    is a function of process, number of the packet, protocol and data.  Without
    the GSO flag the kernel would split large packets; the flag is recorded only. *)
From Coq Require Import String.
From Verif Require Import Base Cstr_Model Opt_Model.

(** The messages of the set-up: the queue number is 16 bits (nfq_hdr_put, 31-43). *)
Inductive cfg :=
| PfUnbind | PfBind
| Bind (q : Z)
| Params (q range flags mask : Z)
| MaxLen (q n : Z).
Definition GSO : Z := 4.
(** nfqueue.c:140-180 *)
Definition setup (qlen mtu q : Z) : list cfg :=
  [PfUnbind; PfBind; Bind (q mod 65536); Params (q mod 65536) mtu GSO GSO; MaxLen (q mod 65536) qlen].
(** nfqueue.c:113; half of MNL_SOCKET_BUFFER_SIZE (a page) *)
Definition bufSize (mtu : Z) : Z := mtu + 2048.
(** nfqueue.c:198, unsigned arithmetic, then int *)
Definition newSize (qlen mtu : Z) : Z := s32 (Z.land (u32 (qlen * mtu) / 2) (u32 (Z.lnot 4095))).

Record packet := mkP { k_proto : Z; k_data : list Z }.
(** What a socket receives: an error, or a packet: queue, identification, size of
    the message without the packet's data, protocol, data *)
Inductive kmsg := Err | Pkt (q id h proto : Z) (data : list Z).

(** A thread: the messages still to be sent, and those that wait in its socket *)
Record thread := mkT { t_todo : list cfg; t_inbox : list kmsg }.
(** A queue: the socket (process and thread), what is copied (None: nothing, the
    packets are not taken), GSO, length, the packets without verdict *)
Record kq := mkK { k_proc : Z; k_thr : Z; k_range : option Z; k_gso : bool; k_max : Z; k_wait : list Z }.
Record kworld := mkKW { w_proc : Z -> option (Z * Z); w_thr : Z -> Z -> option thread; w_kq : Z -> option kq; w_id : Z }.
Definition kstart : kworld := mkKW (fun _ => None) (fun _ _ => None) (fun _ => None) 0.

(** What is seen: a process starts with its options; a packet is queued, or
    dropped by the kernel; a verdict (of process and thread, for a packet, with the
    data the handler got; None: drop); a process ends *)
Inductive kobs :=
| Started (p : Z) (queue : chars) (qlen mtu : Z)
| Queued (q id : Z) (p : packet) | Refuses (q : Z) (p : packet)
| Verdict (p t q id proto : Z) (data : list Z) (v : option Z)
| Ended (p : Z).

Inductive klabel :=
| KStart (p : Z) (queue : chars) (qlen mtu : Z)  (* a load-balancer with these options *)
| KTurn (p t : Z)                                (* the next step of a thread *)
| KFails (p t : Z)                               (* a message of it cannot be sent *)
| KKill (p : Z)
| KPacket (q h : Z) (pk : packet)                (* iptables sends a packet to queue q *)
| KLost (q : Z) (pk : packet).                   (* and the socket has no room for it *)

Definition updZ {A} (f : Z -> A) (k : Z) (v : A) : Z -> A := fun i => if i =? k then v else f i.
Definition updT (f : Z -> Z -> option thread) (p t : Z) (v : thread) : Z -> Z -> option thread :=
  fun i j => if (i =? p) && (j =? t) then Some v else f i j.
Definition withThread (w : kworld) (p t : Z) (v : thread) : kworld := mkKW (w_proc w) (updT (w_thr w) p t v) (w_kq w) (w_id w).
Definition withQueue (w : kworld) (q : Z) (v : option kq) : kworld := mkKW (w_proc w) (w_thr w) (updZ (w_kq w) q v) (w_id w).

(** The end of a process closes its sockets, and with them go its queues. *)
Definition ends (w : kworld) (p : Z) : kworld :=
  mkKW (updZ (w_proc w) p None) (fun i j => if i =? p then None else w_thr w i j)
       (fun q => match w_kq w q with Some k => if k_proc k =? p then None else Some k | None => None end) (w_id w).

(** The kernel gets a message of the set-up from a socket; false: an error is sent *)
Definition own (k : kq) (p t : Z) : bool := (k_proc k =? p) && (k_thr k =? t).
Definition config (w : kworld) (p t : Z) (c : cfg) : kworld * bool :=
  match c with
  | PfUnbind | PfBind => (w, true)
  | Bind q => match w_kq w q with Some _ => (w, false) | None => (withQueue w q (Some (mkK p t None false 1024 [])), true) end
  | Params q range flags mask =>
      match w_kq w q with
      | Some k =>
          if own k p t then
            let r := if (range =? 0) || (65531 <? range) then 65531 else range in
            let g := if Z.testbit mask 2 then Z.testbit flags 2 else k_gso k in
            (withQueue w q (Some (mkK p t (Some r) g (k_max k) (k_wait k))), true)
          else (w, false)
      | None => (w, false)
      end
  | MaxLen q n =>
      match w_kq w q with
      | Some k => if own k p t then (withQueue w q (Some (mkK p t (k_range k) (k_gso k) n (k_wait k))), true) else (w, false)
      | None => (w, false)
      end
  end.

(** The verdict reaches the kernel *)
Definition decided (w : kworld) (q id : Z) : kworld :=
  match w_kq w q with
  | Some k => withQueue w q (Some (mkK (k_proc k) (k_thr k) (k_range k) (k_gso k) (k_max k) (filter (fun i => negb (i =? id)) (k_wait k))))
  | None => w
  end.

(** A packet for queue q *)
Definition enqueue (w : kworld) (q h : Z) (pk : packet) : kworld * list kobs :=
  match w_kq w q with
  | Some k =>
      match k_range k, w_thr w (k_proc k) (k_thr k) with
      | Some r, Some th =>
          if k_max k <=? zlen (k_wait k) then (w, [Refuses q pk])
          else
            let id := w_id w in
            let m := Pkt q id h (k_proto pk) (firstn (Z.to_nat r) (k_data pk)) in
            let w := withThread w (k_proc k) (k_thr k) (mkT (t_todo th) (t_inbox th ++ [m])) in
            let w := withQueue w q (Some (mkK (k_proc k) (k_thr k) (k_range k) (k_gso k) (k_max k) (k_wait k ++ [id]))) in
            (mkKW (w_proc w) (w_thr w) (w_kq w) (id + 1), [Queued q id pk])
      | _, _ => (w, [Refuses q pk])
      end
  | None => (w, [Refuses q pk])
  end.

(** A turn: the next message of the set-up, otherwise mnl_socket_recvfrom and
    mnl_cb_run (210-221) with queue_cb (74-107).  A message larger than the
    buffer, and an error, end the process. *)
Definition turn (handle : Z -> Z -> Z -> list Z -> Z) (w : kworld) (p t : Z) (mtu : Z) (th : thread) : option (kworld * list kobs) :=
  match t_todo th with
  | c :: r =>
      let (w, fine) := config w p t c in
      Some (withThread w p t (mkT r (if fine then t_inbox th else t_inbox th ++ [Err])), [])
  | [] =>
      match t_inbox th with
      | [] => None
      | Err :: _ => Some (ends w p, [Ended p])
      | Pkt q id h proto data :: r =>
          if bufSize mtu <? h + zlen data then Some (ends w p, [Ended p])
          else
            let fw := handle p id proto data in
            let v := if fw <? 0 then None else Some fw in
            Some (decided (withThread w p t (mkT [] r)) q id, [Verdict p t q id proto data v])
      end
  end.

Definition kstep (handle : Z -> Z -> Z -> list Z -> Z) (w : kworld) (l : klabel) : option (kworld * list kobs) :=
  match l with
  | KStart p s qlen mtu =>
      match w_proc w p with
      | Some _ => None
      | None =>
          match queues s with
          | Ok qs =>
              Some (mkKW (updZ (w_proc w) p (Some (qlen, mtu)))
                         (fun i j => if i =? p then (if existsb (Z.eqb j) qs then Some (mkT (setup qlen mtu j) []) else None) else w_thr w i j)
                         (w_kq w) (w_id w), [Started p s qlen mtu])
          | _ => Some (w, [Ended p])
          end
      end
  | KTurn p t =>
      match w_proc w p, w_thr w p t with
      | Some (_, mtu), Some th => turn handle w p t mtu th
      | _, _ => None
      end
  | KFails p t =>
      match w_proc w p, w_thr w p t with
      | Some _, Some _ => Some (ends w p, [Ended p])
      | _, _ => None
      end
  | KKill p => match w_proc w p with Some _ => Some (ends w p, [Ended p]) | None => None end
  | KPacket q h pk => Some (enqueue w q h pk)
  | KLost q pk => Some (w, [Refuses q pk])
  end.
