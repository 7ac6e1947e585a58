(** Model of src/lib/nfqueue.c: reading packets from a queue and sending verdicts.

    The libraries (libmnl, libnetfilter_queue) and the kernel are outside: a datagram read from
    the socket is the list of the messages libmnl finds in it, a message is what libmnl and
    nfq_nlmsg_parse make of it, a sent message is the record of its fields.  Setting up the
    queue (122-208) is left out.  The handler may have a state shared with other threads, so its
    result depends on the number of the call. *)
From Verif Require Import Base IpKey_Model.

(** ntohl of four bytes in memory *)
Definition be32 (l : list Z) : Z :=
  ((nth 0 l 0 * 256 + nth 1 l 0) * 256 + nth 2 l 0) * 256 + nth 3 l 0.

(** A message in a datagram.  [Control]: a message that is not given to queue_cb but to libmnl's
    handler of control messages, or fails libmnl's checks; the value is what mnl_cb_run gets for
    it.  [Data]: a message for queue_cb: whether it can be parsed, res_id of the header (two
    bytes), the attributes NFQA_PACKET_HDR and NFQA_PAYLOAD if present. *)
Inductive msg :=
| Control (rc : Z)
| Data (parses : bool) (res_id : list Z) (hdr : option (list Z)) (payload : option (list Z)).

(** What mnl_socket_recvfrom returns: an error, or a datagram *)
Definition recv := option (list msg).

(** NFQNL_MSG_VERDICT: nfgen res_id as a number, verdict, packet id and mark *)
Record sent := mkSent { q_queue : Z; q_verdict : Z; q_id : Z; q_mark : Z }.
Definition NF_DROP : Z := 0.
Definition NF_ACCEPT : Z := 1.

(** MNL_CB_ERROR, MNL_CB_STOP, MNL_CB_OK *)
Inductive cb := CbError | CbStop | CbOk.
Definition cb_of (rc : Z) : cb := if rc <? 0 then CbError else if rc =? 0 then CbStop else CbOk.

(** How it goes on; [Exits]: exit(EXIT_FAILURE) *)
Inductive fate (A : Type) := Goes (x : A) | Exits | Undefined.
Arguments Goes {A}. Arguments Exits {A}. Arguments Undefined {A}.

(** The number of handler calls so far, and the messages sent *)
Record log := mkLog { g_calls : Z; g_sent : list sent }.

(** The handler: number of the call, hw_protocol, payload *)
Notation handler := (Z -> Z -> list Z -> outcome Z).
(** Whether the n-th mnl_socket_sendto succeeds: [sends] below *)

(** nfq_send_verdict, nfqueue.c:45-72; nfq_hdr_put, 31-43: htons(queue_num) keeps 16 bits *)
Definition send_verdict (sends : Z -> bool) (g : log) (queue id mark verdict : Z) : log * fate unit :=
  (mkLog (g_calls g) (g_sent g ++ [mkSent (queue mod 65536) verdict id mark]),
   if sends (zlen (g_sent g)) then Goes tt else Exits).

(** queue_cb, nfqueue.c:74-107.  struct nfqnl_msg_packet_hdr: packet_id (4 bytes), hw_protocol
    (2), hook (1).  Without payload attribute a null pointer is used (96, 99). *)
Definition queue_cb (handle : handler) (sends : Z -> bool) (g : log) (m : msg) : log * fate cb :=
  match m with
  | Control rc => (g, Goes (cb_of rc))
  | Data parses res hdr payload =>
      if negb parses then (g, Goes CbError)
      else match hdr with
      | None => (g, Goes CbError)
      | Some ph =>
          match payload, rdn ph 0 4, rdn ph 4 2 with
          | Some data, Ok id, Ok hw =>
              let g := mkLog (g_calls g + 1) (g_sent g) in
              match handle (g_calls g - 1) (be16 hw) data with
              | Ok fw =>
                  let (g, f) := if fw <? 0
                                then send_verdict sends g (be16 res) (be32 id) 0 NF_DROP
                                else send_verdict sends g (be16 res) (be32 id) (u32 fw) NF_ACCEPT in
                  (g, match f with Goes _ => Goes CbOk | Exits => Exits | Undefined => Undefined end)
              | Die => (g, Exits)
              | _ => (g, Undefined)
              end
          | _, _, _ => (g, Undefined)
          end
      end
  end.

(** mnl_cb_run: messages of a datagram until one gives MNL_CB_STOP or MNL_CB_ERROR *)
Fixpoint cb_run (handle : handler) (sends : Z -> bool) (g : log) (l : list msg) : log * fate cb :=
  match l with
  | [] => (g, Goes CbOk)
  | m :: r =>
      let (g, f) := queue_cb handle sends g m in
      match f with Goes CbOk => cb_run handle sends g r | _ => (g, f) end
  end.

(** The loop, nfqueue.c:210-221, for the datagrams [l] *)
Fixpoint loop (handle : handler) (sends : Z -> bool) (g : log) (l : list recv) : log * fate unit :=
  match l with
  | [] => (g, Goes tt)
  | None :: _ => (g, Exits)
  | Some d :: r =>
      let (g, f) := cb_run handle sends g d in
      match f with
      | Goes CbError => (g, Exits)
      | Goes _ => loop handle sends g r
      | Exits => (g, Exits)
      | Undefined => (g, Undefined)
      end
  end.
Definition nfqueueRun (handle : handler) (sends : Z -> bool) (l : list recv) : log * fate unit := loop handle sends (mkLog 0 []) l.
