(** C42-C44: the load-balancer objects of flowlb. *)
From Coq Require Import String.
From Verif Require Import Base Cstr_Model IpKey_Model IpKey_Spec Maglev_Model Flow_Model Flow_Spec Flow3_Proofs Remote_Model FlowLb_Model FlowLb_Spec
  FlowLb3_Proofs FlowLb4_Proofs FlowLb5_Proofs.

(** ** C43

    In every interleaving of packets, commands and changes of the shared
    memory by other processes, provided that requests are valid and do not
    name companions, no flow gets another target, a target is not looked for
    between the release of its last reference and the unlinking of its
    object, UDP packets to port 0 do not arrive, and packets are not traced:
    the count of an object is the number of flows and of packets that refer
    to it, plus one for a command in progress; no command being in progress
    it is exactly that number; whatever a flow or packet refers to is there;
    when nothing is in progress there are only objects flows refer to. *)
Theorem C43_counted_partial : forall h shm mem tr w, libc_ok (h_lib h) -> h_trace h = false ->
  exec h (orderly h) (start h shm mem) tr w ->
  (forall a, live (w_st w) a -> let n := references (w_st w) a - (flows (w_st w) a + lookups tr a) in
     (idle (w_flow w) = true -> n = 0) /\ 0 <= n <= 1) /\
  (forall a, a <> 0 -> 0 <= flows (w_st w) a /\ 0 <= lookups tr a /\ (0 < flows (w_st w) a + lookups tr a -> live (w_st w) a)) /\
  (quiescent w -> forall a, live (w_st w) a -> 0 < flows (w_st w) a /\ lookups tr a = 0).
Proof. exact counted. Qed.
Print Assumptions C43_counted_partial.

(** No step uses a released object. *)
Theorem C43_never_used_after_release_partial : forall h shm mem tr w m, libc_ok (h_lib h) -> h_trace h = false ->
  exec h (orderly h) (start h shm mem) tr w -> orderly h w m -> step h w m <> Some Bad.
Proof. exact never_bad. Qed.
Print Assumptions C43_never_used_after_release_partial.

(** An orderly execution: a packet is being handled while its flow is
    deleted; the object goes with the packet. *)
Definition sched_ok : list move :=
  Command (plain "a" "t1") :: fs 3 ++ arrive ex_tcp :: ps 0 2 ++ Command (delcmd (str "a")) :: fs 2 ++ ps 0 1.
Example C43_ex : libc_ok (h_lib (ex_h false)) /\ exists tr w, exec (ex_h false) (orderly (ex_h false)) (ex_start false) tr w /\
  references (w_st w) 1 = 1 /\ flows (w_st w) 1 = 0 /\ lookups tr 1 = 1.
Proof.
  split; [exact ex_lib_ok|].
  destruct (play_sat orderlyb (ex_h false) (orderly (ex_h false)) (ex_start false) sched_ok
     (fun w tr => (references (w_st w) 1 =? 1) && (flows (w_st w) 1 =? 0) && (lookups tr 1 =? 1))%bool)
    as (tr & w & H & B); [|vm_compute; reflexivity|].
  - intros w m H. apply orderlyb_ok. revert H. cbn. intros H. repeat (destruct H as [<-|H]; [move_solve|]); destruct H.
  - exists tr, w. split; auto. apply Bool.andb_true_iff in B. destruct B as (B & B3). apply Bool.andb_true_iff in B. destruct B as (B1 & B2). Lia.lia.
Qed.

(** Without the conditions C43 is false.

    When a flow gets another target its object is released although the flow
    still refers to it, and the next packet uses it. *)
Theorem C43_retarget_refuted : exists h shm mem tr w m, libc_ok (h_lib h) /\
  exec h (fun _ m => ordinary h m) (start h shm mem) tr w /\ ordinary h m /\ step h w m = Some Bad.
Proof.
  destruct retarget_bad as (tr & w & m & H). exists (ex_h false), ex_shm, ex_mem, tr, w, m. split; [exact ex_lib_ok|exact H].
Qed.
Print Assumptions C43_retarget_refuted.

(** With one target only: a new flow gets an object whose last reference
    was just given back, and that is released. *)
Theorem C43_race_refuted : exists h shm mem t tr w m, libc_ok (h_lib h) /\
  exec h (fun _ m => ordinary h m /\ one_target t m) (start h shm mem) tr w /\ ordinary h m /\ one_target t m /\ step h w m = Some Bad.
Proof.
  destruct race_bad as (tr & w & m & H). exists (ex_h false), ex_shm, ex_mem, (str "t1"), tr, w, m. split; [exact ex_lib_ok|exact H].
Qed.
Print Assumptions C43_race_refuted.

(** A refused request for another target leaves the flow without object; no
    packets are needed. *)
Theorem C43_refused_retarget_refuted : exists h shm mem tr w m, libc_ok (h_lib h) /\
  exec h (fun _ m => commands_only m) (start h shm mem) tr w /\ commands_only m /\ step h w m = Some Bad.
Proof.
  destruct refused_bad as (tr & w & m & H). exists (ex_h false), ex_shm, ex_mem, tr, w, m. split; [exact ex_lib_ok|exact H].
Qed.
Print Assumptions C43_refused_retarget_refuted.

(** A refused definition of a new flow leaves an object without flow. *)
Theorem C43_refused_new_refuted : exists h shm mem tr w a m, libc_ok (h_lib h) /\
  exec h (fun _ m => commands_only m) (start h shm mem) tr w /\ quiescent w /\ live (w_st w) a /\ t_set (w_st w) = [] /\ w_flow w = Ret (Reply m).
Proof.
  destruct refused_leak as (tr & w & H). exists (ex_h false), ex_shm, ex_mem, tr, w, 1, "Invalid dports"%string. split; [exact ex_lib_ok|exact H].
Qed.
Print Assumptions C43_refused_new_refuted.

(** Every UDP packet to port 0 that a flow takes leaves a reference behind;
    after 2^31 of them the process is aborted. *)
Theorem C43_port0_refuted : exists h shm mem tr w, libc_ok (h_lib h) /\
  exec h (or_port0 h) (start h shm mem) tr w /\ quiescent w /\ references (w_st w) 1 = 2147483647 /\ flows (w_st w) 1 = 1.
Proof. destruct port0_leak as (tr & w & H). exists (ex_h false), ex_shm, ex_mem, tr, w. split; [exact ex_lib_ok|exact H]. Qed.
Print Assumptions C43_port0_refuted.
Theorem C43_port0_abort_refuted : exists h shm mem tr w m, libc_ok (h_lib h) /\
  exec h (or_port0 h) (start h shm mem) tr w /\ or_port0 h w m /\ step h w m = Some Halt.
Proof. destruct port0_abort as (tr & w & m & H). exists (ex_h false), ex_shm, ex_mem, tr, w, m. split; [exact ex_lib_ok|exact H]. Qed.
Print Assumptions C43_port0_abort_refuted.

(** With packet traces the target is read after the object was given back. *)
Theorem C43_trace_refuted : exists h shm mem tr w m, libc_ok (h_lib h) /\
  exec h (orderly h) (start h shm mem) tr w /\ orderly h w m /\ step h w m = Some Bad.
Proof. destruct trace_bad as (tr & w & m & H). exists (ex_h true), ex_shm, ex_mem, tr, w, m. split; [exact ex_lib_ok|exact H]. Qed.
Print Assumptions C43_trace_refuted.

(** A request that names a companion uses NULL as object. *)
Theorem C43_companion_refuted : exists h shm mem tr w m, libc_ok (h_lib h) /\
  exec h (fun _ m => commands_only m) (start h shm mem) tr w /\
  commands_only m /\ step h w m = Some Bad /\ t_list (w_st w) = [1] /\ references (w_st w) 1 = flows (w_st w) 1.
Proof. destruct null_bad as (tr & w & m & H). exists (ex_h false), ex_shm, ex_mem, tr, w, m. split; [exact ex_lib_ok|exact H]. Qed.
Print Assumptions C43_companion_refuted.

(** ** C44

    A refused request changes nothing at all if it is for a new flow with a
    target that is not available, alters udpencap, is for another target that
    is not available, or is for the same target without udpencap. *)
Theorem C44_refused_changes_nothing_partial : forall L c s m s' ev, runp (cmd_set L c) s = Some (Reply m, s', ev) -> m <> "OK"%string ->
  (fresh_name c s /\ unavailable s (c_target c)) \/
  (exists f o, existing c s f o /\
     (f_udpencap f <> c_udpencap c \/ (c_target c <> Some (lb_target o) /\ unavailable s (c_target c)) \/
      (c_target c = Some (lb_target o) /\ c_udpencap c = 0))) ->
  s' = s.
Proof. exact refused_unchanged. Qed.
Print Assumptions C44_refused_changes_nothing_partial.

(** Requests of these kinds for the flow a with target t1 *)
Definition ex_one : state := p0_state 1.
Example C44_ex : exists m1 m2 m3 m4 e1 e2 e3 e4,
  runp (cmd_set ex_lib (plain "b" "t3")) ex_one = Some (Reply m1, ex_one, e1) /\ m1 <> "OK"%string /\
  fresh_name (plain "b" "t3") ex_one /\ unavailable ex_one (Some (str "t3")) /\
  runp (cmd_set ex_lib (sctpcmd (str "a") (str "t1") 0 None 9899)) ex_one = Some (Reply m2, ex_one, e2) /\ m2 <> "OK"%string /\
  runp (cmd_set ex_lib (plain "a" "t3")) ex_one = Some (Reply m3, ex_one, e3) /\ m3 <> "OK"%string /\
  runp (cmd_set ex_lib (setcmd (str "a") (str "t1") 0 (Some (str "x")) None 0)) ex_one = Some (Reply m4, ex_one, e4) /\ m4 <> "OK"%string /\
  existing (plain "a" "t3") ex_one p0_flow (mkLb (str "t1") 1 1 false).
Proof.
  eexists _, _, _, _, _, _, _, _. split; [vm_compute; reflexivity|]. split; [discriminate|].
  split; [exists (str "b"); split; reflexivity|]. split; [split; [constructor; [|constructor]; eexists; split; [reflexivity|discriminate]|reflexivity]|].
  split; [vm_compute; reflexivity|]. split; [discriminate|].
  split; [vm_compute; reflexivity|]. split; [discriminate|]. split; [vm_compute; reflexivity|]. split; [discriminate|].
  exists (str "a"). repeat split; cbn; Lia.lia.
Qed.

(** In the other cases C44 is false.  Every refused request for a new flow
    with a new target leaves an object nobody refers to ... *)
Theorem C44_new_flow_refuted : forall L c s n t r e, c_name c = Some n -> findName (t_set s) n = None -> c_target c = Some t ->
  not_listed s t -> t_shm s t = Some r -> c_udpencap c = 0 -> makeFlow L (cmdArgs c n 0) = Ok (inl e) ->
  let a := zlen (t_objs s) + 1 in
  exists s', runp (cmd_set L c) s = Some (Reply e, s', [Took a]) /\ t_set s' = t_set s /\ ~ live s a /\ live s' a.
Proof. exact new_leaks. Qed.
Print Assumptions C44_new_flow_refuted.

(** ... and every one for another, new target of a flow whose object nobody
    else uses leaves the flow with an object that was released. *)
Theorem C44_other_target_refuted : forall L c s n f o t r e, c_name c = Some n -> findName (t_set s) n = Some f -> deref s (f_ref f) = Some o ->
  lb_ref o = 1 -> Forall (live s) (t_list s) ->
  c_target c = Some t -> t <> lb_target o -> not_listed s t -> t_shm s t = Some r ->
  c_udpencap c = 0 -> f_udpencap f = 0 -> makeFlow L (cmdArgs c n 0) = Ok (inl e) ->
  exists s' ev, runp (cmd_set L c) s = Some (Reply e, s', ev) /\ t_set s' = t_set s /\ ~ live s' (f_ref f).
Proof. exact refused_dangling. Qed.
Print Assumptions C44_other_target_refuted.

Example C44_ex2 : exists e, makeFlow ex_lib (cmdArgs (setcmd (str "a") (str "t2") 0 (Some (str "x")) None 0) (str "a") 0) = Ok (inl e) /\
  findName (t_set ex_one) (str "a") = Some p0_flow /\ findName (t_set ex_one) (str "b") = None /\
  deref ex_one (f_ref p0_flow) = Some (mkLb (str "t1") 1 1 false) /\
  Forall (live ex_one) (t_list ex_one) /\ not_listed ex_one (str "t2") /\ t_shm ex_one (str "t2") = Some 2.
Proof.
  eexists. split; [vm_compute; reflexivity|]. split; [reflexivity|]. split; [reflexivity|]. split; [reflexivity|].
  split; [constructor; [eexists; reflexivity|constructor]|]. split; [constructor; [|constructor]; eexists; split; [reflexivity|discriminate]|reflexivity].
Qed.

(** The classification of packets changes too: a refused request with
    udpencap leaves the flow of the encapsulating UDP behind, and packets no
    flow took before go to a target of another flow. *)
Theorem C44_companion_refuted : exists h shm mem tr w c m s' ev v s1 e1 s2 e2, libc_ok (h_lib h) /\
  exec h (fun _ m => ordinary h m) (start h shm mem) tr w /\ quiescent w /\
  runp (cmd_set (h_lib h) c) (w_st w) = Some (Reply m, s', ev) /\ m <> "OK"%string /\
  runp (packet h 1 false 2048 ex_encap) (w_st w) = Some (Verdict (h_nolb h), s1, e1) /\
  runp (packet h 1 false 2048 ex_encap) s' = Some (Verdict v, s2, e2) /\ v <> h_nolb h.
Proof.
  destruct companion_left as (tr & w & s' & ev & s1 & e1 & s2 & e2 & H1 & H2 & H3 & H4 & H5).
  exists (ex_h false), ex_shm, ex_mem, tr, w, refused_b, "Invalid dports"%string, s', ev, 101, s1, e1, s2, e2.
  split; [exact ex_lib_ok|]. split; [exact H1|]. split; [exact H2|]. split; [exact H3|]. split; [discriminate|]. split; [exact H4|]. split; [exact H5|discriminate].
Qed.
Print Assumptions C44_companion_refuted.

(** ** C42

    The decision for an encapsulated packet is the one for the same SCTP
    packet sent natively, if some companion with the port accepts the UDP
    packet and nothing else does, and there are no byte matches. *)
Theorem C42_encapsulated_decision_partial : forall h now done eth d1 d2 f enc l4 sp dp s ops ans (R : chars -> rule) L,
  libc_ok L -> run L [] ops = Ok (t_set s, ans) ->
  (forall n a, current ops ans n = Some a -> means L a (R n) /\ r_match (R n) = None) ->
  flow_ok f -> fl_proto f = 132 -> 0 < enc ->
  l4_packet eth d1 17 (fl_src f) (fl_dst f) l4 -> ports_at d1 l4 sp dp -> port_num dp = enc -> ports_at d1 (l4 + 8) (fl_sport f) (fl_dport f) ->
  flow_packet eth d2 f ->
  let outer := mkFlow (fl_src f) (fl_dst f) 17 sp dp in flow_ok outer ->
  (forall n a, current ops ans n = Some a -> accepts_packet (R n) outer d1 l4 -> a_ref a = 0 /\ a_udpencap a = enc) ->
  (exists n a, current ops ans n = Some a /\ accepts_packet (R n) outer d1 l4) ->
  runp (packet h now done eth d1) s = runp (packet h now done eth d2) s.
Proof. exact encap_same. Qed.
Print Assumptions C42_encapsulated_decision_partial.

(** A flow with target and lower priority that accepts the UDP packet takes
    it from the flow with udpencap: here a flow without conditions. *)
Theorem C42_lower_priority_refuted : exists h shm mem tr w d1 d2 fl v1 v2 s1 e1 s2 e2, libc_ok (h_lib h) /\
  exec h (fun _ m => ordinary h m) (start h shm mem) tr w /\ quiescent w /\
  encap_packet 2048 d1 9899 fl /\ flow_packet 2048 d2 fl /\
  (exists f, In f (t_set (w_st w)) /\ f_ref f = 1 /\ f_udpencap f = 9899 /\
     forall g, In g (t_set (w_st w)) -> f_ref g <> 0 -> g <> f -> f_priority g < f_priority f) /\
  runp (packet h 1 false 2048 d1) (w_st w) = Some (Verdict v1, s1, e1) /\
  runp (packet h 1 false 2048 d2) (w_st w) = Some (Verdict v2, s2, e2) /\ v1 <> v2.
Proof.
  destruct udp_catch_all as (tr & w & s1 & e1 & s2 & e2 & H1 & H2 & H3 & H4 & H5 & H6 & H7).
  exists (ex_h false), ex_shm, ex_mem, tr, w, ex_encap, ex_native, ex_inner, 102, 101, s1, e1, s2, e2.
  split; [exact ex_lib_ok|]. repeat (split; [assumption|]). discriminate.
Qed.
Print Assumptions C42_lower_priority_refuted.
Example C42_ex : exists set ans, run ex_lib [] ex_udp_ops = Ok (set, ans) /\
  (forall n a, current ex_udp_ops ans n = Some a -> means ex_lib a (ex_udp_rules n) /\ r_match (ex_udp_rules n) = None) /\
  flow_ok ex_inner /\ flow_ok ex_outer /\ flow_packet 2048 ex_native ex_inner /\
  l4_packet 2048 ex_encap 17 (fl_src ex_inner) (fl_dst ex_inner) 20 /\ ports_at ex_encap 20 [9;9] [38;171] /\ port_num [38;171] = 9899 /\
  ports_at ex_encap 28 (fl_sport ex_inner) (fl_dport ex_inner) /\
  (forall n a, current ex_udp_ops ans n = Some a -> accepts_packet (ex_udp_rules n) ex_outer ex_encap 20 -> a_ref a = 0 /\ a_udpencap a = 9899) /\
  (exists n a, current ex_udp_ops ans n = Some a /\ accepts_packet (ex_udp_rules n) ex_outer ex_encap 20).
Proof. exact ex_udp_example. Qed.
