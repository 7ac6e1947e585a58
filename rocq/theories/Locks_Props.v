(** C91: threads do not wait for each other for ever. *)
From Verif Require Import Base Locks_Model Locks_Spec Locks_Proofs.

(** C91 - whatever calls the threads of lb and flowlb make, and however they are interleaved: a
    thread that wants a lock does not have it already, one that lets go of a lock has it, a thread
    between calls has none, none is held while waiting for a request or for the trace client to
    leave, and at most the read lock of the flows while waiting for the flow client to read. *)
Theorem C91_own : forall first may n ts t, texec first may n ts -> In t ts ->
  match th_ops t with
  | Acq l :: _ | Shared l :: _ => holds t l = false
  | Rel l :: _ => holds t l = true
  | Client FlowReads :: _ => forall l m, In (l, m) (th_held t) -> m = false /\ exists tr, l = Flows tr
  | Client TraceLeaves :: _ | [] => th_held t = []
  | Client TraceReads :: _ => True
  end.
Proof. exact own. Qed.
Print Assumptions C91_own.
(** A lock that a thread has taken exclusively no other one has. *)
Theorem C91_exclusive : forall first may n ts, texec first may n ts -> forall i j t u l m,
  znth ts i = Some t -> znth ts j = Some u -> In (l, true) (th_held t) -> In (l, m) (th_held u) -> i = j.
Proof. exact all_apart. Qed.
Print Assumptions C91_exclusive.
(** If the clients that threads wait for read, some thread can go on as long as a call is under way. *)
Theorem C91_no_deadlock : forall first may n ts ready, texec first may n ts ->
  (forall t c r, In t ts -> th_ops t = Client c :: r -> ready c = true) ->
  idle ts \/ exists i ts', tstep first ready ts i = Some ts'.
Proof. exact no_deadlock. Qed.
Print Assumptions C91_no_deadlock.
(** All calls so end, in whatever order the threads go on: each step leaves one operation less. *)
Theorem C91_ends : forall first may n ts ts1, texec first may n ts -> steps first (fun _ => true) ts ts1 ->
  texec first may n ts1 /\ (idle ts1 \/ exists i ts2, tstep first (fun _ => true) ts1 i = Some ts2) /\
  forall i ts2, tstep first (fun _ => true) ts1 i = Some ts2 -> left_of ts1 = S (left_of ts2).
Proof. exact ends. Qed.
Print Assumptions C91_ends.
(** A client of the flow thread that sends nothing or does not read its answer holds up no packet
    and no trace: all calls of the other threads can end without it. *)
Theorem C91_flow_client : forall first n ts ready, texec first roles n ts -> ready TraceReads = true -> ready TraceLeaves = true ->
  (forall i t, znth ts i = Some t -> i <> 0 -> th_ops t <> [] -> exists j ts', tstep first ready ts j = Some ts') /\
  exists ts', steps first ready ts ts' /\ forall i t, znth ts' i = Some t -> i <> 0 -> th_ops t = [].
Proof. intros first n ts ready X R1 R2. split; [intros i t; exact (flow_client first n ts ready i t X R1 R2)|exact (others_end first n ts ready X R1 R2)]. Qed.
Print Assumptions C91_flow_client.
(** A trace client that does not read holds up packets for ever, also such that trace nothing any
    more: the flow thread traces while it holds the lock of the list of load-balancers. *)
Theorem C91_trace_client_refuted : forall first, exists ts t,
  texec first roles 3 ts /\ znth ts 2 = Some t /\ th_ops t <> [] /\ (forall c, ~ In (Client c) (th_ops t)) /\
  forall i, tstep first deaf ts i = None.
Proof. exact trace_client. Qed.
Print Assumptions C91_trace_client_refuted.

(** A call that waits for another one that holds two locks and goes on *)
Example C91_ex1 : texec true roles 3 ex_stuck /\ ~ idle ex_stuck /\ tstep true (fun _ => true) ex_stuck 2 = None /\ tstep true (fun _ => true) ex_stuck 0 <> None.
Proof. split; [apply ex_reach|]. split; [intros H; specialize (H _ (or_introl eq_refl)); discriminate|]. split; [reflexivity|discriminate]. Qed.
(** A flow client that does not read, and a packet *)
Example C91_ex2 : texec true roles 3 ex_listing /\ tstep true silent ex_listing 0 = None /\ tstep true silent ex_listing 2 <> None.
Proof. split; [apply ex_listing_reach|]. split; [reflexivity|discriminate]. Qed.
(** [steps] goes on *)
Example C91_ex3 : exists ts, steps true (fun _ => true) ex_stuck ts /\ idle ts.
Proof. apply (all_end true roles 3). apply ex_reach. Qed.
