(** From the command line of lb and flowlb to what they do (C75). *)
From Coq Require Import String Lia.
From Verif Require Import Base Lists Cstr_Model IpKey_Model IpKey_Spec Maglev_Model Rangeset_Model Rangeset_Spec Remote_Model Opt_Model Opt_Spec
  Stats_Model Match_Spec Flow_Model Flow_Spec Flow3_Proofs FlowLb_Model FlowLb4_Proofs Lb_Model Lb_Spec Opt_Model Opt_Spec Start_Model Start_Spec Start_Proofs Start2_Proofs Start3_Proofs Start4_Proofs OptDoc_Spec OptDoc_Proofs.
From Verif Require Frag_Model.

(** ** C75

    lb serves the queues of the line and has exactly the options of the line:
    the last value given, otherwise the default. *)
Theorem C75_lb_partial : forall E i its tail w en tn t own tr,
  Forall (item_ok lbOpts) its -> says lbOpts its w -> number lbOpts its "sctp_encap" en -> value_of lbOpts its "tshm" (Some tn) ->
  e_shm E tn = Some (t, own) -> tier_of E w tr -> sensible w -> usable E w -> 0 <= en < 65536 ->
  exists qs, cmdLb E i (line its tail) =
      Ok (opens i w, Serving (mkL (mkH false (w_mode w) (w_notargets w) (-1) tr (frag_conf w) (with_tun w) false (e_lib E)) en t)
                       qs (w_qlen w) (w_mtu w) (w_reasm w)) /\
    NoDup qs /\ forall x, In x qs <-> w_first w <= x <= w_last w.
Proof. exact lb_line. Qed.
Print Assumptions C75_lb_partial.
Theorem C75_flowlb_partial : forall E i its tail w nolb ping tr,
  Forall (item_ok flowlbOpts) its -> says flowlbOpts its w -> number flowlbOpts its "nolb_fwmark" nolb -> value_of flowlbOpts its "promiscuous_ping" ping ->
  tier_of E w tr -> sensible w -> usable E w ->
  exists qs, cmdFlowLb E i (line its tail) =
      Ok (opens i w, Serving (mkH (match ping with None => true | Some _ => false end) (w_mode w) (w_notargets w) nolb tr (frag_conf w) (with_tun w) false (e_lib E))
                       qs (w_qlen w) (w_mtu w) (w_reasm w)) /\
    NoDup qs /\ forall x, In x qs <-> w_first w <= x <= w_last w.
Proof. exact flowlb_line. Qed.
Print Assumptions C75_flowlb_partial.

(** So the packets of a flow are marked by the table of --tshm, hashed as
    --hash_mode and --sctp_encap say, or with --notargets_fwmark. *)
Theorem C75_lb_packets : forall E i its tail w en tn t own tr,
  Forall (item_ok lbOpts) its -> says lbOpts its w -> number lbOpts its "sctp_encap" en -> value_of lbOpts its "tshm" (Some tn) ->
  e_shm E tn = Some (t, own) -> tier_of E w tr -> sensible w -> usable E w -> 0 <= en < 65536 ->
  exists acts g qs, cmdLb E i (line its tail) = Ok (acts, Serving g qs (w_qlen w) (w_mtu w) (w_reasm w)) /\
    (forall q, In q qs <-> w_first w <= q <= w_last w) /\
    forall now done eth data f s, flow_ok f ->
      (flow_packet eth data f /\ (fl_proto f = 17 -> en <> 0 -> port_num (fl_dport f) <> en) \/ en <> 0 /\ encap_packet eth data en f) ->
      Lb_Spec.table_ok (t_mem s t) ->
      runp (lbPacket g now done eth data) s =
        Some (Verdict (mark_or (w_notargets w) (table_mark (t_mem s t) (flow_hash (w_mode w) f))), s, []).
Proof. exact lb_packets. Qed.
Print Assumptions C75_lb_packets.

(** The program ends if the mtu is below 576 or larger than that of the tun
    device, or this cannot be opened, and if there is no table. *)
Theorem C75_lb_ends : forall E i its tail w en tn t own tr,
  Forall (item_ok lbOpts) its -> says lbOpts its w -> number lbOpts its "sctp_encap" en -> value_of lbOpts its "tshm" (Some tn) ->
  e_shm E tn = Some (t, own) -> tier_of E w tr -> (w_mtu w < 576 \/ exists d, w_tun w = Some d /\ zlen d < 40 /\ (e_tun E d = false \/ e_mtu E d < w_mtu w)) ->
  exists acts, cmdLb E i (line its tail) = Ok (acts, Exited).
Proof. exact lb_small_mtu. Qed.
Print Assumptions C75_lb_ends.
Theorem C75_lb_no_table : forall E i its tail tn,
  Forall (item_ok lbOpts) its -> value_of lbOpts its "tshm" (Some tn) -> e_shm E tn = None -> cmdLb E i (line its tail) = Ok ([], Exited).
Proof. exact lb_no_table. Qed.
Print Assumptions C75_lb_no_table.

(** Whatever the words, lb ends or serves, unless the tun device has a name of
    40 characters or more. *)
Theorem C75_lb_no_crash_partial : forall E i words, (exists acts b, cmdLb E i words = Ok (acts, b)) \/
  exists its tail d, words = line its tail /\ Forall (item_ok lbOpts) its /\ value_of lbOpts its "tun" (Some d) /\ 40 <= zlen d.
Proof. exact lb_no_crash. Qed.
Print Assumptions C75_lb_no_crash_partial.
(** flowlb: the packets of flows are marked by the table of the flow's target, or with
    --notargets_fwmark or --nolb_fwmark. *)
Theorem C75_flowlb_packets : forall E i its tail w nolb ping tr,
  Forall (item_ok flowlbOpts) its -> says flowlbOpts its w -> number flowlbOpts its "nolb_fwmark" nolb -> value_of flowlbOpts its "promiscuous_ping" ping ->
  tier_of E w tr -> sensible w -> usable E w ->
  exists acts h qs, cmdFlowLb E i (line its tail) = Ok (acts, Serving h qs (w_qlen w) (w_mtu w) (w_reasm w)) /\
    (forall q, In q qs <-> w_first w <= q <= w_last w) /\
    forall now done eth data fl l4 s L ops ans (R : chars -> rule),
    libc_ok L -> run L [] ops = Ok (t_set s, ans) -> (forall n a, current ops ans n = Some a -> means L a (R n)) ->
    flow_ok fl -> l4_packet eth data (fl_proto fl) (fl_src fl) (fl_dst fl) l4 -> ports_at data l4 (fl_sport fl) (fl_dport fl) ->
    (forall n a, current ops ans n = Some a -> r_match (R n) <> None -> complete_plus data (fl_proto fl) l4) ->
    (fl_proto fl = 17 -> port_num (fl_dport fl) <> 0 /\
       forall n a, current ops ans n = Some a -> accepts_packet (R n) fl data l4 -> a_udpencap a <> port_num (fl_dport fl)) ->
    (forall n a, current ops ans n = Some a -> a_ref a <> 0 -> accepts_packet (R n) fl data l4 ->
       exists o, deref s (a_ref a) = Some o /\ 1 <= lb_ref o < 2147483647 /\ Lb_Spec.table_ok (t_mem s (lb_region o))) ->
    exists v ev, runp (packet h now done eth data) s = Some (Verdict v, s, ev) /\
    ((exists n a o, current ops ans n = Some a /\ a_ref a <> 0 /\ accepts_packet (R n) fl data l4 /\
       (forall n' a', current ops ans n' = Some a' -> a_ref a' <> 0 -> accepts_packet (R n') fl data l4 -> a_priority a' <= a_priority a) /\
       deref s (a_ref a) = Some o /\ v = mark_or (w_notargets w) (table_mark (t_mem s (lb_region o)) (flow_hash (w_mode w) fl))) \/
     v = nolb /\ forall n a, current ops ans n = Some a -> accepts_packet (R n) fl data l4 -> a_ref a = 0).
Proof. exact flowlb_packets. Qed.
Print Assumptions C75_flowlb_packets.
(** A load-balancer that serves was started by a line with known options, a table and a
    tier that exist, a queue range that does not go backwards, a tun device that can be
    opened, and a sufficient mtu; all other lines end the program (or crash it, below). *)
Theorem C75_lb_only : forall E i words acts g qs ql m r,
  cmdLb E i words = Ok (acts, Serving g qs ql m r) ->
  exists its tail tn own q, words = line its tail /\ Forall (item_ok lbOpts) its /\ value_of lbOpts its "tshm" (Some tn) /\ e_shm E tn = Some (l_target g, own) /\
    (forall n, value_of lbOpts its "lbshm" (Some n) -> e_shm E n <> None) /\ value_of lbOpts its "queue" (Some q) /\ ~ backwards q /\ qs <> [] /\ 576 <= m /\
    (forall d, value_of lbOpts its "tun" (Some d) -> e_tun E d = true /\ m <= e_mtu E d).
Proof. exact lb_only. Qed.
Print Assumptions C75_lb_only.
(** The same for flowlb *)
Theorem C75_flowlb_only : forall E i words acts g qs ql m r,
  cmdFlowLb E i words = Ok (acts, Serving g qs ql m r) ->
  exists its tail q, words = line its tail /\ Forall (item_ok flowlbOpts) its /\
    (forall n, value_of flowlbOpts its "lbshm" (Some n) -> e_shm E n <> None) /\ value_of flowlbOpts its "queue" (Some q) /\ ~ backwards q /\ qs <> [] /\ 576 <= m /\
    (forall d, value_of flowlbOpts its "tun" (Some d) -> e_tun E d = true /\ m <= e_mtu E d).
Proof. exact flowlb_only. Qed.
Print Assumptions C75_flowlb_only.
(** Pings are taken by any flow with their addresses exactly if this was asked for. *)
Theorem C75_flowlb_ping : forall E i words acts h qs ql m r, cmdFlowLb E i words = Ok (acts, Serving h qs ql m r) ->
  exists its tail, words = line its tail /\ Forall (item_ok flowlbOpts) its /\ (h_ping h = true <-> on_line flowlbOpts its "promiscuous_ping").
Proof. exact ping_asked. Qed.
Print Assumptions C75_flowlb_ping.
(** lb without options: table nfqlb, queue 2, no tun device, no LB tier *)
Theorem C75_lb_plain : forall E i t own, e_shm E (str "nfqlb") = Some (t, own) -> cmdLb E i [] =
  Ok ([HTrunc (str "ftshm"); HZero (str "ftshm"); HReady i (str "ftshm") (Frag_Model.mkConf 500 500 0 1500 200)],
      Serving (mkL (mkH false 1 (-1) (-1) None (Frag_Model.mkConf 500 500 0 1500 200) false false (e_lib E)) 0 t) [2] 1024 1500 0).
Proof. exact plain_lb. Qed.
Print Assumptions C75_lb_plain.
(** As C75_lb_no_crash_partial *)
Theorem C75_flowlb_no_crash_partial : forall E i words,
  (exists acts b, cmdFlowLb E i words = Ok (acts, b)) \/
  exists its tail d, words = line its tail /\ Forall (item_ok flowlbOpts) its /\ value_of flowlbOpts its "tun" (Some d) /\ 40 <= zlen d.
Proof. exact flowlb_no_crash. Qed.
Print Assumptions C75_flowlb_no_crash_partial.
Example C75_flowlb_ex : forall L, exists acts h, cmdFlowLb (ex_env L) 1 [str "--mtu=1300"; str "--tun"; str "tun0"; str "--queue=1:3"; str "--promiscuous_ping"] =
  Ok (acts, Serving h [1; 2; 3] 1024 1300 0) /\ h_ping h = true /\ h_tun h = true.
Proof. intros L. do 2 eexists. split; [vm_compute; reflexivity|]. split; reflexivity. Qed.
Example C75_only_ex : forall L, cmdFlowLb (ex_env L) 1 [str "--lbshm=nosuch"] = Ok ([], Exited) /\
  exists acts, cmdFlowLb (ex_env L) 1 [str "--queue=3:1"] = Ok (acts, Exited).
Proof. intros L. split; [reflexivity|]. eexists. vm_compute. reflexivity. Qed.

(** A line with values of all kinds, in all forms: ex_items, ex_want, ex_env *)
Example C75_ex : forall L, Forall (item_ok lbOpts) ex_items /\ says lbOpts ex_items ex_want /\ number lbOpts ex_items "sctp_encap" 9899 /\
  value_of lbOpts ex_items "tshm" (Some (str "nfqlb")) /\ e_shm (ex_env L) (str "nfqlb") = Some (3, 5) /\ tier_of (ex_env L) ex_want None /\ sensible ex_want /\ usable (ex_env L) ex_want.
Proof. exact start_example. Qed.
Example C75_defaults : forall L, exists h, cmdLb (ex_env L) 1 [] =
  Ok ([HTrunc (str "ftshm"); HZero (str "ftshm"); HReady 1 (str "ftshm") (Frag_Model.mkConf 500 500 0 1500 200)], Serving (mkL h 0 3) [2] 1024 1500 0) /\
  h_mode h = 1 /\ h_notargets h = -1 /\ h_tun h = false.
Proof. intros L. eexists. split; [vm_compute; reflexivity|]. repeat split; reflexivity. Qed.

(** Values are not checked: "--ft_size=0", and any text that is no number, is
    accepted, and the first fragment that is not the first of its packet kills
    the load-balancer. *)
Theorem C75_size_refuted : forall E i x s, e_shm E (str "nfqlb") = Some x -> s = "0"%string \/ s = "many"%string ->
  exists acts g qs ql m r, cmdLb E i [str "--ft_size=" ++ str s] = Ok (acts, Serving g qs ql m r) /\
    forall mem now done eth data, other_fragment 0 eth data -> runp (lbPacket g now done eth data) (lw_st (lstart g mem)) = None.
Proof. exact zero_size. Qed.
Print Assumptions C75_size_refuted.
(** The same for flowlb *)
Theorem C75_flowlb_size_refuted : forall E i s,
  s = "0"%string \/ s = "many"%string ->
  exists acts g qs ql m r, cmdFlowLb E i [str "--ft_size=" ++ str s] = Ok (acts, Serving g qs ql m r) /\
    forall shm mem now done eth data, other_fragment 0 eth data -> runp (packet g now done eth data) (w_st (start g shm mem)) = None.
Proof. exact flowlb_zero_size. Qed.
Print Assumptions C75_flowlb_size_refuted.
(** Numbers out of range are taken modulo 2^32, ports modulo 2^16. *)
Theorem C75_range_refuted : forall E i x, e_shm E (str "nfqlb") = Some x ->
  exists acts h t qs ql m r, cmdLb E i [str "--sctp_encap=75435"; str "--ft_buckets=-1"; str "--qlength=4294967297"] = Ok (acts, Serving (mkL h 9899 t) qs ql m r) /\
    Frag_Model.g_maxBuckets (h_frag h) = 4294967295 /\ ql = 1.
Proof. exact out_of_range. Qed.
Print Assumptions C75_range_refuted.
(** The name of a tun device is copied without check. *)
Theorem C75_tun_name_refuted : forall E i x n, e_shm E (str "nfqlb") = Some x -> 40 <= zlen n -> ~ In 0 n -> e_tun E n = true ->
  cmdLb E i [str "--tun"; n] = UB.
Proof. exact long_tun. Qed.
Print Assumptions C75_tun_name_refuted.
Example C75_refuted_ex : other_fragment 0 2048 ex_other /\ zlen (repeat 97 40) = 40.
Proof. split; [exact ex_other_ok|reflexivity]. Qed.
