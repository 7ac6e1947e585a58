(** Specification of the verdicts (C47). *)
From Verif Require Import Base IpKey_Model Nfq_Model.

(** A packet in a queue *)
Record queued := mkQ { p_queue : Z; p_id : Z; p_proto : Z; p_data : list Z }.

Definition number (l : list Z) : Z := fold_left (fun n b => 256 * n + b) l 0.

(** The message the kernel sends for a packet: queue number and identification, protocol and
    hook in network byte order, and the packet. *)
Definition packet_msg (m : msg) (p : queued) : Prop :=
  exists q id hw hook, m = Data true q (Some (id ++ hw ++ hook)) (Some (p_data p)) /\
    length q = 2%nat /\ length id = 4%nat /\ length hw = 2%nat /\
    Forall (fun b => 0 <= b < 256) (q ++ id ++ hw) /\
    number q = p_queue p /\ number id = p_id p /\ number hw = p_proto p.

(** Datagrams with any number of packets each; [ps] are all the packets in order *)
Definition packets (l : list recv) (ps : list queued) : Prop :=
  exists pss, ps = concat pss /\
    Forall2 (fun d ps => exists ms, d = Some ms /\ Forall2 packet_msg ms ps) l pss.

(** The verdict for a packet for which the handler gave [fw] *)
Definition verdict (p : queued) (fw : Z) : sent :=
  mkSent (p_queue p) (if 0 <=? fw then NF_ACCEPT else NF_DROP) (p_id p) (if 0 <=? fw then fw else 0).

(** The results of the handler for packets number n, n+1, ... *)
Fixpoint results (handle : Z -> Z -> list Z -> outcome Z) (n : Z) (ps : list queued) : list (outcome Z) :=
  match ps with [] => [] | p :: r => handle n (p_proto p) (p_data p) :: results handle (n + 1) r end.
Definition int (z : Z) : Prop := -2147483648 <= z < 2147483648.

(** Messages with a packet, well formed or not *)
Definition has_packet (m : msg) : bool :=
  match m with Data true _ (Some _) (Some _) => true | _ => false end.
Definition packet_msgs (l : list recv) : Z :=
  zlen (filter has_packet (flat_map (fun d => match d with Some ms => ms | None => [] end) l)).

(** What may end the program at a message: it is an error, it cannot be understood or has no
    header, the verdict cannot be sent, or the handler ends the program. *)
Definition ends_at (handle : Z -> Z -> list Z -> outcome Z) (sends : Z -> bool) (m : msg) : Prop :=
  (exists rc, m = Control rc /\ rc < 0) \/
  (exists p q h d, m = Data p q h d /\ (p = false \/ h = None)) \/
  (exists k, sends k = false) \/
  (exists p q h d, m = Data p q (Some h) (Some d) /\ exists n eth, handle n eth d = Die).
