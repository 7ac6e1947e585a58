(** C48: the decisions of lb and flowlb. *)
From Coq Require Import String.
From Verif Require Import Base Cstr_Model IpKey_Model IpKey_Spec Maglev_Model Match_Spec Flow_Model Flow_Spec Flow3_Proofs Remote_Model FlowLb_Model FlowLb_Spec
  FlowLb4_Proofs FlowLb5_Proofs Lb_Model Lb_Spec Lb2_Proofs Lb3_Proofs LbEx_Proofs.

(** Whatever the packets, the flow commands, the changes of shared memory and the interleaving:
    the verdict is drop, the mark for "no targets" (or "no load-balancer"), the mark of a target
    that is active, at some time, in a table of a target, or the mark of another
    load-balancer that is active in the table of the LB tier. *)
Theorem C48_lb_decisions : forall g mem tr w i v,
  lexec g (lstart g mem) tr w -> znth (lw_pk w) i = Some (Ret (Verdict v)) ->
  v = -1 \/ v = h_notargets (l_h g) \/ exists w', lpassed g (lstart g mem) tr w w' /\
    (active (lw_st w') (l_target g) v \/ exists r own, h_tier (l_h g) = Some (r, own) /\ active (lw_st w') r v /\ v <> own).
Proof. exact lb_decisions. Qed.
Print Assumptions C48_lb_decisions.
Theorem C48_flowlb_decisions : forall h shm mem tr w i v,
  exec h anything (start h shm mem) tr w -> znth (w_pk w) i = Some (Ret (Verdict v)) ->
  v = -1 \/ v = h_notargets h \/ v = h_nolb h \/ exists w' r, passed h (start h shm mem) tr w w' /\ active (w_st w') r v /\
    (target_table (w_st w') r \/ exists own, h_tier h = Some (r, own) /\ v <> own).
Proof. exact flowlb_decisions. Qed.
Print Assumptions C48_flowlb_decisions.

(** The time is between the arrival of the packet and the verdict, unless the packet is a
    fragment other than the first (those get the mark of the first, C13), and the table is
    the one of the flow selected at such a time.  The LB tier decides about fragments only. *)
Theorem C48_lb_during : forall g w0 now done eth data w1 tr w v, ~ other_fragment (l_encap g) eth data ->
  lstep g w0 (LArrive now done eth data) = Some (LCont w1) -> lexec g w1 tr w ->
  znth (lw_pk w) (zlen (lw_pk w0)) = Some (Ret (Verdict v)) ->
  v = -1 \/ v = h_notargets (l_h g) \/ exists w', lpassed g w1 tr w w' /\
    (active (lw_st w') (l_target g) v \/
     fragment (l_encap g) eth data /\ exists r own, h_tier (l_h g) = Some (r, own) /\ active (lw_st w') r v /\ v <> own).
Proof. exact lb_during. Qed.
Print Assumptions C48_lb_during.
Theorem C48_flowlb_during : forall h w0 now done eth data w1 ev tr w v, ~ other_fragment 0 eth data ->
  step h w0 (Arrive now done eth data) = Some (Cont w1 ev) -> exec h anything w1 tr w ->
  znth (w_pk w) (zlen (w_pk w0)) = Some (Ret (Verdict v)) ->
  v = -1 \/ v = h_notargets h \/ v = h_nolb h \/ exists w' r, passed h w1 tr w w' /\ active (w_st w') r v /\
    ((exists a w2, passed h w1 tr w w2 /\ selects h (w_st w2) eth data a /\ lbRegion a (w_st w') = Some r) \/
     fragment 0 eth data /\ exists own, h_tier h = Some (r, own) /\ v <> own).
Proof. exact flowlb_during. Qed.
Print Assumptions C48_flowlb_during.

(** The decision about a packet of a flow, native or encapsulated, while the table does not
    change: what the table says for the hash of the flow.  With a table that was set up the
    packet is served. *)
Theorem C48_lb_exact : forall g w0 now done eth data f w1 tr w v t, flow_ok f ->
  (flow_packet eth data f /\ (fl_proto f = 17 -> l_encap g <> 0 -> port_num (fl_dport f) <> l_encap g) \/
   l_encap g <> 0 /\ encap_packet eth data (l_encap g) f) ->
  lstep g w0 (LArrive now done eth data) = Some (LCont w1) -> lexec g w1 tr w ->
  (forall w', lpassed g w1 tr w w' -> t_mem (lw_st w') (l_target g) = t) ->
  znth (lw_pk w) (zlen (lw_pk w0)) = Some (Ret (Verdict v)) ->
  v = mark_or (h_notargets (l_h g)) (table_mark t (flow_hash (h_mode (l_h g)) f)).
Proof. exact lb_exact. Qed.
Print Assumptions C48_lb_exact.
Theorem C48_lb_served : forall g now done eth data f s, flow_ok f ->
  (flow_packet eth data f /\ (fl_proto f = 17 -> l_encap g <> 0 -> port_num (fl_dport f) <> l_encap g) \/
   l_encap g <> 0 /\ encap_packet eth data (l_encap g) f) ->
  table_ok (t_mem s (l_target g)) ->
  runp (lbPacket g now done eth data) s =
    Some (Verdict (mark_or (h_notargets (l_h g)) (table_mark (t_mem s (l_target g)) (flow_hash (h_mode (l_h g)) f))), s, []).
Proof. exact lb_served. Qed.
Print Assumptions C48_lb_served.
Example C48_lb_ex : exists tr w, lexec c48_lb (lstart c48_lb ex_mem) tr w /\ znth (lw_pk w) 0 = Some (Ret (Verdict 101)).
Proof. exact c48_lb_run. Qed.
Example C48_lb_packet_ex : flow_ok ex_inner /\ l_encap c48_lb <> 0 /\ encap_packet 2048 ex_encap (l_encap c48_lb) ex_inner /\ table_ok (ex_mem 1).
Proof.
  split; [apply ex_flows_ok|]. split; [discriminate|]. split; [apply ex_sctp_packets|].
  unfold table_ok. cbn. split; [reflexivity|]. split; [reflexivity|]. intros i [<-|[]]. reflexivity.
Qed.

(** flowlb: the table of the flow of highest priority that accepts the packet and has a
    target, or "no load-balancer" if there is none, for a packet of a flow that is not taken as
    encapsulated (C42), while the flows and the table do not change. *)
Theorem C48_flowlb_exact : forall h w0 now done eth data fl l4 w1 ev tr w v L ops set ans (R : chars -> rule),
  libc_ok L -> run L [] ops = Ok (set, ans) -> (forall n a, current ops ans n = Some a -> means L a (R n)) ->
  flow_ok fl -> l4_packet eth data (fl_proto fl) (fl_src fl) (fl_dst fl) l4 -> ports_at data l4 (fl_sport fl) (fl_dport fl) ->
  (forall n a, current ops ans n = Some a -> r_match (R n) <> None -> complete_plus data (fl_proto fl) l4) ->
  (fl_proto fl = 17 -> port_num (fl_dport fl) <> 0 /\
     forall n a, current ops ans n = Some a -> accepts_packet (R n) fl data l4 -> a_udpencap a <> port_num (fl_dport fl)) ->
  step h w0 (Arrive now done eth data) = Some (Cont w1 ev) -> exec h anything w1 tr w ->
  (forall w', passed h w1 tr w w' -> t_set (w_st w') = set) ->
  znth (w_pk w) (zlen (w_pk w0)) = Some (Ret (Verdict v)) ->
  (exists n a, current ops ans n = Some a /\ a_ref a <> 0 /\ accepts_packet (R n) fl data l4 /\
     (forall n' a', current ops ans n' = Some a' -> a_ref a' <> 0 -> accepts_packet (R n') fl data l4 -> a_priority a' <= a_priority a) /\
     forall t, (forall w' r, passed h w1 tr w w' -> lbRegion (a_ref a) (w_st w') = Some r -> t_mem (w_st w') r = t) ->
       v = mark_or (h_notargets h) (table_mark t (flow_hash (h_mode h) fl))) \/
  v = h_nolb h /\ forall n a, current ops ans n = Some a -> accepts_packet (R n) fl data l4 -> a_ref a = 0.
Proof. exact flowlb_exact. Qed.
Print Assumptions C48_flowlb_exact.
Theorem C48_flowlb_served : forall h now done eth data fl l4 s L ops ans (R : chars -> rule),
  libc_ok L -> run L [] ops = Ok (t_set s, ans) -> (forall n a, current ops ans n = Some a -> means L a (R n)) ->
  flow_ok fl -> l4_packet eth data (fl_proto fl) (fl_src fl) (fl_dst fl) l4 -> ports_at data l4 (fl_sport fl) (fl_dport fl) ->
  (forall n a, current ops ans n = Some a -> r_match (R n) <> None -> complete_plus data (fl_proto fl) l4) ->
  (fl_proto fl = 17 -> port_num (fl_dport fl) <> 0 /\
     forall n a, current ops ans n = Some a -> accepts_packet (R n) fl data l4 -> a_udpencap a <> port_num (fl_dport fl)) ->
  (forall n a, current ops ans n = Some a -> a_ref a <> 0 -> accepts_packet (R n) fl data l4 ->
     exists o, deref s (a_ref a) = Some o /\ 1 <= lb_ref o < 2147483647 /\ table_ok (t_mem s (lb_region o))) ->
  exists v ev, runp (packet h now done eth data) s = Some (Verdict v, s, ev) /\
  ((exists n a o, current ops ans n = Some a /\ a_ref a <> 0 /\ accepts_packet (R n) fl data l4 /\
     (forall n' a', current ops ans n' = Some a' -> a_ref a' <> 0 -> accepts_packet (R n') fl data l4 -> a_priority a' <= a_priority a) /\
     deref s (a_ref a) = Some o /\ v = mark_or (h_notargets h) (table_mark (t_mem s (lb_region o)) (flow_hash (h_mode h) fl))) \/
  v = h_nolb h /\ forall n a, current ops ans n = Some a -> accepts_packet (R n) fl data l4 -> a_ref a = 0).
Proof. exact flowlb_served. Qed.
Print Assumptions C48_flowlb_served.
(** One SCTP flow with target t1 and mark 101; an SCTP packet *)
Example C48_flowlb_ex : exists tr w, step (ex_h false) c48_world (Arrive 1 false 2048 ex_native) = Some (Cont c48_arrived []) /\
  exec (ex_h false) anything c48_arrived tr w /\ (forall w', passed (ex_h false) c48_arrived tr w w' -> c48_chk w') /\
  znth (w_pk w) 0 = Some (Ret (Verdict 101)).
Proof. exact c48_run. Qed.
Example C48_flowlb_rules_ex : exists ans, run ex_lib [] ex_udp_ops = Ok (c48_set, ans) /\
  (forall n a, current ex_udp_ops ans n = Some a -> means ex_lib a (ex_udp_rules n)) /\
  (forall n a, current ex_udp_ops ans n = Some a -> r_match (ex_udp_rules n) <> None -> complete_plus ex_native 132 20) /\
  (forall n a, current ex_udp_ops ans n = Some a -> a_ref a <> 0 -> accepts_packet (ex_udp_rules n) ex_inner ex_native 20 ->
     exists o, deref c48_state (a_ref a) = Some o /\ 1 <= lb_ref o < 2147483647 /\ table_ok (t_mem c48_state (lb_region o))).
Proof. exact c48_rules. Qed.
Example C48_flowlb_packet_ex : flow_ok ex_inner /\ l4_packet 2048 ex_native 132 (fl_src ex_inner) (fl_dst ex_inner) 20 /\
  ports_at ex_native 20 (fl_sport ex_inner) (fl_dport ex_inner).
Proof. exact c48_packet. Qed.
