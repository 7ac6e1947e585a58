(** C49: the fwmark command and the data path. *)
From Coq Require Import String.
From Verif Require Import Base Cstr_Model IpKey_Model IpKey_Spec Maglev_Model Match_Spec Flow_Model Flow_Spec Flow3_Proofs FlowLb_Model FlowLb_Spec
  FlowLb4_Proofs FlowLb5_Proofs Lb_Model Lb_Spec LbEx_Proofs Fwmark_Model Fwmark_Spec Fwmark2_Proofs.

(** What is printed for a 5-tuple: the hash of packets of the flow (C11), the entry of the
    lookup table and the mark. *)
Theorem C49_prints : forall L gai src dst p mode f m t, pton_ok L -> gai_ok L gai -> asked L src dst p f -> mode_text mode m ->
  (cmdFwmark gai src dst (Some p) mode None = Ok (mkOut (flow_hash m f) None)) /\
  (table_ok t -> exists i ai fw, cmdFwmark gai src dst (Some p) mode (Some (Some t)) = Ok (mkOut (flow_hash m f) (Some (i, ai, fw))) /\
    i = flow_hash m f mod mM t /\ znth (mlookup t) i = Some ai /\ forall none, mark_or none (table_mark t (flow_hash m f)) = if fw <? 0 then none else fw).
Proof. exact fwmark_prints. Qed.
Print Assumptions C49_prints.
Example C49_prints_ex : pton_ok ex_lib /\ gai_ok ex_lib ex_gai /\ asked ex_lib (str "10.0.0.1:1234") (str "10.0.0.2:80") (str "SCTP") ex_inner /\ mode_text None 1.
Proof. split; [exact (proj1 ex_lib_ok)|]. split; [exact ex_gai_ok|]. split; [exact ex_asked|reflexivity]. Qed.

(** The verdict of lb, with the same table and mode, in every execution *)
Theorem C49_lb : forall L gai src dst p mode t o g w0 now done eth data f w1 tr w v, pton_ok L -> gai_ok L gai ->
  asked L src dst p f -> mode_text mode (h_mode (l_h g)) -> cmdFwmark gai src dst (Some p) mode (Some (Some t)) = Ok o ->
  flow_ok f ->
  (flow_packet eth data f /\ (fl_proto f = 17 -> l_encap g <> 0 -> port_num (fl_dport f) <> l_encap g) \/
   l_encap g <> 0 /\ encap_packet eth data (l_encap g) f) ->
  lstep g w0 (LArrive now done eth data) = Some (LCont w1) -> lexec g w1 tr w ->
  (forall w', lpassed g w1 tr w w' -> t_mem (lw_st w') (l_target g) = t) ->
  znth (lw_pk w) (zlen (lw_pk w0)) = Some (Ret (Verdict v)) -> predicted o (h_notargets (l_h g)) v.
Proof. exact fwmark_lb. Qed.
Print Assumptions C49_lb.
Example C49_lb_ex : mode_text (Some (str "4")) (h_mode (l_h c48_lb)) /\ l_encap c48_lb <> 0 /\ encap_packet 2048 ex_encap (l_encap c48_lb) ex_inner /\
  exists h, cmdFwmark ex_gai (str "10.0.0.1:1234") (str "10.0.0.2:80") (Some (str "SCTP")) (Some (str "4")) (Some (Some (ex_mem 1))) = Ok (mkOut h (Some (0, 0, 101))).
Proof.
  split; [split; [dec_solve|cbn; lia]|]. split; [discriminate|]. split; [apply ex_sctp_packets|]. eexists. vm_compute. reflexivity.
Qed.

(** The verdict of flowlb, when a flow with a target accepts the packet and the table is the one
    of the target *)
Theorem C49_flowlb : forall L gai src dst p mode t o h w0 now done eth data fl l4 w1 ev tr w v ops set ans (R : chars -> rule),
  libc_ok L -> gai_ok L gai ->
  asked L src dst p fl -> mode_text mode (h_mode h) -> cmdFwmark gai src dst (Some p) mode (Some (Some t)) = Ok o ->
  run L [] ops = Ok (set, ans) -> (forall n a, current ops ans n = Some a -> means L a (R n)) ->
  flow_ok fl -> l4_packet eth data (fl_proto fl) (fl_src fl) (fl_dst fl) l4 -> ports_at data l4 (fl_sport fl) (fl_dport fl) ->
  (forall n a, current ops ans n = Some a -> r_match (R n) <> None -> complete_plus data (fl_proto fl) l4) ->
  (fl_proto fl = 17 -> port_num (fl_dport fl) <> 0 /\
     forall n a, current ops ans n = Some a -> accepts_packet (R n) fl data l4 -> a_udpencap a <> port_num (fl_dport fl)) ->
  step h w0 (Arrive now done eth data) = Some (Cont w1 ev) -> exec h anything w1 tr w ->
  (forall w', passed h w1 tr w w' -> t_set (w_st w') = set) ->
  (exists n a, current ops ans n = Some a /\ a_ref a <> 0 /\ accepts_packet (R n) fl data l4) ->
  (forall n a, current ops ans n = Some a -> a_ref a <> 0 -> accepts_packet (R n) fl data l4 ->
     (forall n' a', current ops ans n' = Some a' -> a_ref a' <> 0 -> accepts_packet (R n') fl data l4 -> a_priority a' <= a_priority a) ->
     forall w' r, passed h w1 tr w w' -> lbRegion (a_ref a) (w_st w') = Some r -> t_mem (w_st w') r = t) ->
  znth (w_pk w) (zlen (w_pk w0)) = Some (Ret (Verdict v)) -> predicted o (h_notargets h) v.
Proof. exact fwmark_flowlb. Qed.
Print Assumptions C49_flowlb.
(** The other hypotheses are met as in C48_flowlb_ex. *)
Example C49_flowlb_ex : mode_text (Some (str "4")) (h_mode (ex_h false)) /\ exists ans a, run ex_lib [] ex_udp_ops = Ok (c48_set, ans) /\
  current ex_udp_ops ans (str "a") = Some a /\ a_ref a <> 0 /\ accepts_packet (ex_udp_rules (str "a")) ex_inner ex_native 20.
Proof. exact ex_flow_target. Qed.

(** Without --proto and with the table of the LB tier: whether the tier forwards the fragments
    of a datagram between the addresses to another load-balancer, and to which. *)
Theorem C49_tier_flowlb : forall L gai src dst mode sn dn a b id first o h now done eth data s r own, pton_ok L -> gai_ok L gai ->
  endpoint L src a sn -> endpoint L dst b dn -> cmdFwmark gai src dst None mode (Some (Some (t_mem s r))) = Ok o ->
  part eth data first a b id -> h_tier h = Some (r, own) -> fragment 0 eth data ->
  exists i ai fw, o_table o = Some (i, ai, fw) /\
    runp (packet h now done eth data) s =
    if (0 <=? fw) && negb (fw =? own) then Some (Verdict fw, s, []) else runp (packet (untiered h) now done eth data) s.
Proof. exact fwmark_tier. Qed.
Print Assumptions C49_tier_flowlb.
Theorem C49_tier_lb : forall L gai src dst mode sn dn a b id first o g now done eth data s r own, pton_ok L -> gai_ok L gai ->
  endpoint L src a sn -> endpoint L dst b dn -> cmdFwmark gai src dst None mode (Some (Some (t_mem s r))) = Ok o ->
  part eth data first a b id -> h_tier (l_h g) = Some (r, own) -> fragment (l_encap g) eth data ->
  exists i ai fw, o_table o = Some (i, ai, fw) /\
    runp (lbPacket g now done eth data) s =
    if (0 <=? fw) && negb (fw =? own) then Some (Verdict fw, s, [])
    else runp (lbPacket (mkL (untiered (l_h g)) (l_encap g) (l_target g)) now done eth data) s.
Proof. exact fwmark_tier_lb. Qed.
Print Assumptions C49_tier_lb.
Example C49_tier_ex : exists o, cmdFwmark ex_gai (str "10.0.0.1:1234") (str "10.0.0.2:80") None None (Some (Some (ex_mem 1))) = Ok o /\
  endpoint ex_lib (str "10.0.0.1:1234") (mapped [10;0;0;1]) 1234 /\ endpoint ex_lib (str "10.0.0.2:80") (mapped [10;0;0;2]) 80 /\
  part 2048 ex_other_part false (mapped [10;0;0;1]) (mapped [10;0;0;2]) [1;2] /\ fragment 0 2048 ex_other_part.
Proof. exact ex_tier. Qed.

(** IPv4 addresses in brackets are accepted, but undefined behaviour as the source, and as the
    destination another hash is printed than the one of the packets. *)
Theorem C49_bracketed_ipv4_source_refuted : forall L gai dst proto mode shm, gai_ok L gai -> cmdFwmark gai ex_bracket dst proto mode shm = UB.
Proof. exact bracket_src_refuted. Qed.
Print Assumptions C49_bracketed_ipv4_source_refuted.
Theorem C49_bracketed_ipv4_destination_refuted : forall L gai mode m, pton_ok L -> gai_ok L gai -> mode_text mode m ->
  exists x, cmdFwmark gai (str "10.0.0.1:1234") ex_bracket (Some (str "tcp")) mode None = Ok (mkOut x None) /\ x <> flow_hash m ex_asked_flow.
Proof. exact bracket_dst_refuted. Qed.
Print Assumptions C49_bracketed_ipv4_destination_refuted.
