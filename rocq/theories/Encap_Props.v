(** C42: encapsulated SCTP and flows with byte matches. *)
From Coq Require Import String.
From Verif Require Import Base Cstr_Model IpKey_Model IpKey_Spec Match_Model Match_Spec Flow_Model Flow_Spec Remote_Model FlowLb_Model FlowLb_Spec
  Flow3_Proofs FlowLb4_Proofs FlowLb5_Proofs Encap_Spec Encap_Proofs.

(** Full statement: the decision about an encapsulated SCTP packet is the one
    about the same SCTP packet sent natively, whatever flows with lower
    priority exist. It is false as it stands (C42_lower_priority_refuted in
    FlowLb_Props); proved for flow sets where only companions with the port
    accept the UDP packet, and some companion does. The flows may have byte
    matches: then the two packets must carry the same bytes and more than the
    SCTP header. *)
Theorem C42_byte_matches_partial : forall h now done eth d1 d2 f enc l4 l4' sp dp s ops ans (R : chars -> rule) L,
  libc_ok L -> run L [] ops = Ok (t_set s, ans) ->
  (forall n a, current ops ans n = Some a -> means L a (R n)) ->
  flow_ok f -> fl_proto f = 132 -> 0 < enc ->
  l4_packet eth d1 17 (fl_src f) (fl_dst f) l4 -> ports_at d1 l4 sp dp -> port_num dp = enc -> ports_at d1 (l4 + 8) (fl_sport f) (fl_dport f) ->
  l4_packet eth d2 132 (fl_src f) (fl_dst f) l4' -> ports_at d2 l4' (fl_sport f) (fl_dport f) ->
  ((forall n a, current ops ans n = Some a -> r_match (R n) = None) \/ same_rest d1 (l4 + 8) d2 l4' /\ complete_plus d2 132 l4') ->
  let outer := mkFlow (fl_src f) (fl_dst f) 17 sp dp in flow_ok outer ->
  (forall n a, current ops ans n = Some a -> accepts_packet (R n) outer d1 l4 -> a_ref a = 0 /\ a_udpencap a = enc) ->
  (exists n a, current ops ans n = Some a /\ accepts_packet (R n) outer d1 l4) ->
  runp (packet h now done eth d1) s = runp (packet h now done eth d2) s.
Proof. exact encap_same_match. Qed.
Print Assumptions C42_byte_matches_partial.

Example C42_bytes_ex : exists set ans, run ex_lib [] ex_b_ops = Ok (set, ans) /\
  (forall n a, current ex_b_ops ans n = Some a -> means ex_lib a (ex_b_rules n)) /\
  flow_ok ex_inner /\ flow_ok ex_outer /\
  l4_packet 2048 ex_b_encap 17 (fl_src ex_inner) (fl_dst ex_inner) 20 /\ ports_at ex_b_encap 20 [9;9] [38;171] /\ port_num [38;171] = 9899 /\
  ports_at ex_b_encap 28 (fl_sport ex_inner) (fl_dport ex_inner) /\
  l4_packet 2048 ex_b_native 132 (fl_src ex_inner) (fl_dst ex_inner) 20 /\ ports_at ex_b_native 20 (fl_sport ex_inner) (fl_dport ex_inner) /\
  same_rest ex_b_encap 28 ex_b_native 20 /\ complete_plus ex_b_native 132 20 /\
  (forall n a, current ex_b_ops ans n = Some a -> accepts_packet (ex_b_rules n) ex_outer ex_b_encap 20 -> a_ref a = 0 /\ a_udpencap a = 9899) /\
  (exists n a, current ex_b_ops ans n = Some a /\ accepts_packet (ex_b_rules n) ex_outer ex_b_encap 20).
Proof. exact ex_byte_example. Qed.
