(** Log and trace (C77). *)
From Coq Require Import String.
From Verif Require Import Base Cstr_Model Log_Model Log_Spec Log_Proofs Log2_Proofs Log3_Proofs Log4_Proofs Log5_Proofs Log6_Proofs.

(** ** C77

    Whatever the threads log and trace and however clients come and go, no
    FILE that is closed or NULL is used. *)
Theorem C77_no_undef : forall es s, reached es s -> st s <> Undef.
Proof. exact no_undef. Qed.
Print Assumptions C77_no_undef.

(** The process stays up if clients stay until they have been served, and no
    thread opens a descriptor between fclose and close in the server.
    Missing: without these conditions it is false, see below. *)
Theorem C77_survives_partial : forall es s, reachedBy orderly es s -> st s = Runs.
Proof. exact survives. Qed.
Print Assumptions C77_survives_partial.

(** A text traced while a client is served reaches it when the call returns,
    whole and after what it got before, unless it has left. *)
Theorem C77_trace_arrives : forall es s t m l c es2 s1,
  reached es s -> Z.land (mask s) m <> 0 -> run s (ETrace t m l :: es2) = Some s1 -> along (fun s _ => session s c) s (ETrace t m l :: es2) ->
  gone s1 c = false -> ems s1 t = Idle -> exists a b, got s1 c = got s c ++ a ++ l :: b.
Proof. exact trace_arrives. Qed.
Print Assumptions C77_trace_arrives.
(** So does a text logged, with the log bit of the mask; and it is on stderr. *)
Theorem C77_log_arrives : forall es s t v l c es2 s1,
  reached es s -> v <= level s -> run s (ELog t v l :: es2) = Some s1 ->
  along (fun s _ => session s c /\ Z.land (mask s) 1 <> 0) s (ELog t v l :: es2) ->
  gone s1 c = false -> ems s1 t = Idle -> exists a b, got s1 c = got s c ++ a ++ l :: b.
Proof. exact log_arrives. Qed.
Print Assumptions C77_log_arrives.
Theorem C77_logged : forall es s t v l es2 s1,
  reached es s -> v <= level s -> run s (ELog t v l :: es2) = Some s1 -> exists b, err s1 = err s ++ l :: b.
Proof. exact logged. Qed.
Print Assumptions C77_logged.

(** Before the first trace client a text traced is on stderr. *)
Theorem C77_trace_stderr : forall es s t m l es2 s1,
  reached es s -> ~ In (EConnect true) (es ++ es2) -> Z.land (mask s) m <> 0 -> run s (ETrace t m l :: es2) = Some s1 -> ems s1 t = Idle ->
  exists a b, err s1 = err s ++ a ++ l :: b.
Proof. exact trace_stderr. Qed.
Print Assumptions C77_trace_stderr.

(** Clients of trace get what was traced or logged or a text of the server,
    clients of the flow socket replies and listings.
    Missing: without the condition it is false, see below. *)
Theorem C77_who_gets_partial : forall es s c l, reachedBy clean es s -> In l (got s c) ->
  (isTrace es c /\ (traced es l \/ ownText l)) \/ (isFlow es c /\ replied es l).
Proof. exact who_gets. Qed.
Print Assumptions C77_who_gets_partial.
(** A thread in log or trace writes to the client being served and to no
    other, one whole text at the end. *)
Theorem C77_only_session : forall es s t s1 c, reached es s -> step s (EEmit t) = Some s1 -> got s1 c <> got s c ->
  session s c /\ exists l, got s1 c = got s c ++ [l].
Proof. exact only_session. Qed.
Print Assumptions C77_only_session.

(** A thread that holds the lock of trace lets it go by itself after at most
    four steps if clients read.  Missing: clients that do not. *)
Theorem C77_lock_partial : forall es s t,
  reached es s -> lock s = Some t -> st s = Runs -> (forall c, full s c = false) ->
  exists own s1, (length own <= 4)%nat /\ Forall (ownStep t) own /\ run s own = Some s1 /\ (lock s1 = None \/ st s1 = Killed).
Proof. exact holder. Qed.
Print Assumptions C77_lock_partial.

(** Nothing leaks: between clients the descriptors open are those of the start
    and of the load-balancers, and each is still what it was opened for.
    Missing: without the condition it is false, see below. *)
Theorem C77_descriptors_partial : forall n m v es s,
  run (start n m v) es = Some s -> along clean (start n m v) es -> pc s = S99 -> flow s = FIdle ->
  forall d o, fds s d = Some o <-> ((d < n)%nat /\ o = OOther) \/ exists k, In (k, d) (held s) /\ o = OShm k.
Proof. exact no_leak. Qed.
Print Assumptions C77_descriptors_partial.

(** When its client has left or has sent something the server closes the
    connection by itself and is ready for the next one. *)
Theorem C77_session_ends : forall es s c d,
  reached es s -> st s = Runs -> pc s = S122 d -> fds s d = Some (OConn c) -> ems s 0%nat = Idle -> lock s = None ->
  (gone s c = true \/ sent s c = true) -> full s c = false ->
  exists own s1, (length own <= 14)%nat /\ Forall (ownStep 0) own /\ run s own = Some s1 /\ st s1 = Runs /\ pc s1 = S98 /\ fds s1 d = None /\ lock s1 = None.
Proof. exact session_ends. Qed.
Print Assumptions C77_session_ends.

(** A client that stays and does not read stops them: a thread keeps the lock
    and another, that traces too, never gets it. *)
Theorem C77_stall_refuted : exists es s, reachedBy orderly es s /\ st s = Runs /\ session s 0 /\ (exists l, ems s 2%nat = Want l) /\ gone s 0%nat = false /\
  forall es2 s1, along (fun s e => clean s e /\ e <> EGone 0 /\ e <> EDrain 0) s es2 -> run s es2 = Some s1 -> lock s1 = Some 1%nat /\ ems s1 2%nat = ems s 2%nat.
Proof. exact stall_all. Qed.
Print Assumptions C77_stall_refuted.
Theorem C77_stalls : forall es0 s t l c es s1,
  reachedBy clean es0 s -> ems s t = Print l -> session s c -> gone s c = false -> full s c = true ->
  along (fun s e => clean s e /\ e <> EGone c /\ e <> EDrain c) s es -> run s es = Some s1 ->
  lock s1 = Some t /\ forall t' l', ems s t' = Want l' -> ems s1 t' = Want l'.
Proof. exact stalls. Qed.
Print Assumptions C77_stalls.

(** A trace client that has left when it is accepted brings the process down
    by SIGPIPE: the server never gets to its wait. *)
Theorem C77_dead_client : forall es0 s c q d es s1,
  reachedBy clean es0 s -> pc s = S99 -> tq s = c :: q -> gone s c = true ->
  along (fun s e => clean s e /\ forall d, e <> EServe d false) s (EServe d true :: es) -> run s (EServe d true :: es) = Some s1 ->
  st s1 = Killed \/ listening (pc s1) = None.
Proof. exact gone_client. Qed.
Print Assumptions C77_dead_client.
Theorem C77_dead_client_refuted : exists es s, reachedBy clean es s /\ st s = Killed /\ connects es = [true].
Proof.
  destruct dead_run as (s & R & K). exists deadRun, s. split; [exists 3%nat, 0, 0; split; [exact R|]|split; [exact K|reflexivity]].
  apply alongb_ok with cleanb; [exact cleanb_ok|vm_compute; reflexivity].
Qed.
Print Assumptions C77_dead_client_refuted.

(** So does a flow client that leaves before its reply is written. *)
Theorem C77_flow_client_refuted : forall n m v l, exists s, run (start n m v) [EConnect false; FAccept n; EGone 0; FReply l] = Some s /\ st s = Killed.
Proof. exact flow_gone. Qed.
Print Assumptions C77_flow_client_refuted.

(** A client that sets the mask and connects while another is served gets
    nothing of what is traced, for ever, though it is served. *)
Theorem C77_mask_refuted : exists es1 es2 s, reachedBy orderly (es1 ++ EMask 2 :: EConnect true :: es2) s /\ (forall m, ~ In (EMask m) es2) /\ length (connects es1) = 1%nat /\
  st s = Runs /\ session s 1 /\ gone s 1%nat = false /\ full s 1%nat = false /\
  forall es s1, along (fun s e => clean s e /\ forall m, e <> EMask m) s es -> run s es = Some s1 -> forall l, In l (got s1 1%nat) -> ownText l.
Proof. exact mask_unseen. Qed.
Print Assumptions C77_mask_refuted.

(** The descriptor of a session is closed twice.  A flow client accepted in
    between never gets its reply; flowlb exits when a load-balancer opened in
    between is released. *)
Theorem C77_descriptor_refuted : exists es s, reachedBy polite es s /\ st s = Runs /\ isFlow es 1 /\ In (FReply (str "OK")) es /\ fq s = [] /\
  gone s 1%nat = false /\ full s 1%nat = false /\ got s 1%nat = [].
Proof. exists lostRun. exact reply_lost. Qed.
Print Assumptions C77_descriptor_refuted.
Theorem C77_exit_refuted : exists es s, reachedBy polite es s /\ st s = Died.
Proof. exists diedRun. exact lb_dies. Qed.
Print Assumptions C77_exit_refuted.

(** ** The hypotheses can be met *)
Example good : exists es s, reachedBy orderly es s /\ session s 0 /\ gone s 0%nat = false /\ Z.land (mask s) 2 <> 0 /\ ems s 1%nat = Idle /\ level s = 0.
Proof. destruct good_run as (s & A & B & C & D & E & F & G & H & I & J). exists goodRun, s. rewrite G. repeat split; auto. discriminate. Qed.
Definition tracing : list event := [ETrace 1 2 (str "one"); EEmit 1; EEmit 1; EEmit 1; EEmit 1].
Example traces_one : ends (run (start 3 0 0) (goodRun ++ tracing))
  (fun s => match rev (got s 0%nat) with l :: _ => streq l (str "one") | [] => false end && match ems s 1%nat with Idle => true | _ => false end) = true.
Proof. vm_compute. reflexivity. Qed.
Definition logging : list event := [ELog 1 0 (str "two"); EEmit 1; EEmit 1; EEmit 1; EEmit 1; EEmit 1].
Example logs_two : ends (run (start 3 0 0) (goodRun ++ logging))
  (fun s => match rev (got s 0%nat) with l :: _ => streq l (str "two") | [] => false end && match rev (err s) with l :: _ => streq l (str "two") | [] => false end) = true.
Proof. vm_compute. reflexivity. Qed.
Example stalled : exists s l l2, reachedBy orderly stallRun s /\ st s = Runs /\ ems s 1%nat = Print l /\ ems s 2%nat = Want l2 /\ session s 0 /\ gone s 0%nat = false /\ full s 0%nat = true.
Proof. exact stall_run. Qed.
Example dead : exists s, reachedBy clean [EConnect true; EGone 0; EServe 0 true] s /\ pc s = S99 /\ tq s = [0%nat] /\ gone s 0%nat = true /\
  exists s1, run s (EServe 3 true :: serves 8 ++ emits 3) = Some s1 /\ st s1 = Killed.
Proof. exact gone_waits. Qed.
Example holds_lock : ends (run (start 3 0 0) (goodRun ++ [ETrace 1 2 (str "one"); EEmit 1])) (fun s => match lock s with Some 1%nat => negb (full s 0%nat) | _ => false end) = true.
Proof. vm_compute. reflexivity. Qed.
Example waits : ends (run (start 3 0 0) (goodRun ++ [ESend 0]))
  (fun s => match pc s, ems s 0%nat, lock s with S122 3, Idle, None => sent s 0%nat && negb (full s 0%nat) | _, _, _ => false end) = true.
Proof. vm_compute. reflexivity. Qed.
Example between : ends (run (start 3 0 0) (staleRun ++ serves 5 ++ [FMap (str "lb") 3; EServe 0 true]))
  (fun s => match pc s, flow s, fds s 3%nat, fds s 4%nat with S99, FIdle, Some (OShm _), None => true | _, _, _, _ => false end) = true.
Proof. vm_compute. reflexivity. Qed.
Example to_stderr : ends (run (start 3 2 0) tracing) (fun s => match err s, ems s 1%nat with [l], Idle => streq l (str "one") | _, _ => false end) = true.
Proof. vm_compute. reflexivity. Qed.
