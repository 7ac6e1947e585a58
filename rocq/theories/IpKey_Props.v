(** C10-C12, C14-C18, C42, C59: from packets to hash keys. *)
From Verif Require Import Base Lists IpKey_Model IpKey_Spec IpKey_Proofs IpKey2_Proofs IpKey3_Proofs IpKey4_Proofs.

(** Packets for the examples: TCP over IPv4 with options, UDP over IPv6, ... *)
Definition ex4 (hl mf fo proto : Z) (rest : list Z) : list Z :=
  [64 + hl;0;0;99; 1;2;mf;fo; 64;proto;0;0; 10;0;0;1; 10;0;0;2] ++ repeat 7 (Z.to_nat (4 * hl - 20)) ++ rest.
Definition ex_flow4 : flow := mkFlow (mapped [10;0;0;1]) (mapped [10;0;0;2]) 6 [4;210] [0;80].
Definition ex_sctp4 : flow := mkFlow (mapped [10;0;0;1]) (mapped [10;0;0;2]) 132 [4;210] [0;80].
Definition ex_sctp6 : flow := mkFlow (repeat 1 16) (repeat 2 16) 132 [4;210] [0;80].
Definition ex_p1 := ex4 5 0 0 6 [4;210; 0;80; 1;2;3;4;5].
Definition ex_p2 := ex4 7 64 0 6 [4;210; 0;80; 9;9].
Definition ex_e4 := ex4 5 0 0 17 ([9;9; 39;15; 0;0;0;0] ++ [4;210; 0;80; 7]).
Definition ex_s6 := ipv6_pkt 132 [4;210; 0;80; 1;2;3;4;5].

Ltac hdr_solve := unfold ipv4_header, ipv6_header, ipv4_frag, ports_at; cbn [fl_src fl_dst fl_proto fl_sport fl_dport];
  repeat match goal with
  | |- _ /\ _ => split
  | |- at_ _ _ _ => at_solve
  | |- exists b0, at_ (_ (?x + ?y) _ _ _ _) _ _ /\ _ => fail
  | |- _ = _ => vm_compute; reflexivity
  | |- _ < _ => vm_compute; reflexivity
  | |- _ <= _ => vm_compute; discriminate
  end.
Lemma ex_flow4_ok : flow_ok ex_flow4.
Proof. unfold flow_ok, bytes; cbn; repeat split; auto; apply bytes_chk; reflexivity. Qed.
Lemma ex_sctp4_ok : flow_ok ex_sctp4.
Proof. unfold flow_ok, bytes; cbn; repeat split; auto; apply bytes_chk; reflexivity. Qed.
Lemma ex_sctp6_ok : flow_ok ex_sctp6.
Proof. unfold flow_ok, bytes; cbn; repeat split; auto; apply bytes_chk; reflexivity. Qed.
Lemma ex_p1_flow : flow_packet ETH_IP ex_p1 ex_flow4.
Proof.
  exists 20. split; [|hdr_solve]. left. split; [reflexivity|]. exists [10;0;0;1], [10;0;0;2].
  split; [reflexivity|]. split; [reflexivity|]. split.
  - unfold ipv4_header. split; [reflexivity|]. split; [reflexivity|]. split; [exists 69; split; [at_solve|reflexivity]|]. hdr_solve.
  - exists 0, 0. hdr_solve.
Qed.
Lemma ex_p2_flow : flow_packet ETH_IP ex_p2 ex_flow4.
Proof.
  exists 28. split; [|hdr_solve]. left. split; [reflexivity|]. exists [10;0;0;1], [10;0;0;2].
  split; [reflexivity|]. split; [reflexivity|]. split.
  - unfold ipv4_header. split; [reflexivity|]. split; [reflexivity|]. split; [exists 71; split; [at_solve|reflexivity]|]. hdr_solve.
  - exists 64, 0. hdr_solve.
Qed.
Lemma ex_e4_flow : encap_packet ETH_IP ex_e4 9999 ex_sctp4.
Proof.
  split; [reflexivity|]. exists 20, [9;9], [39;15]. split; [|split; [hdr_solve|split; [reflexivity|hdr_solve]]].
  left. split; [reflexivity|]. exists [10;0;0;1], [10;0;0;2].
  split; [reflexivity|]. split; [reflexivity|]. split.
  - unfold ipv4_header. split; [reflexivity|]. split; [reflexivity|]. split; [exists 69; split; [at_solve|reflexivity]|]. hdr_solve.
  - exists 0, 0. hdr_solve.
Qed.
Lemma ex_s6_flow : flow_packet ETH_IPV6 ex_s6 ex_sctp6.
Proof. exists 40. split; [|hdr_solve]. right. split; [reflexivity|]. split; [reflexivity|]. hdr_solve. Qed.

(** C10 - two packets of one flow get the same key, namely the five-tuple; packets of
    different flows get different keys. *)
Theorem C10_same_flow_same_key : forall fuel enc eth d1 d2 f, flow_ok f ->
  flow_packet eth d1 f -> flow_packet eth d2 f ->
  (fl_proto f = 17 -> enc <> 0 -> port_num (fl_dport f) <> enc) ->
  exists k, getHashKey (S fuel) enc eth d1 = Ok (Some (0, k, None)) /\
            getHashKey (S fuel) enc eth d2 = Ok (Some (0, k, None)) /\ key_bytes k = flow_key f.
Proof. exact same_flow_same_key. Qed.
Print Assumptions C10_same_flow_same_key.

Theorem C10_different_flows_different_keys : forall fuel1 fuel2 enc eth1 eth2 d1 d2 f1 f2 k1 k2,
  flow_ok f1 -> flow_ok f2 -> flow_packet eth1 d1 f1 -> flow_packet eth2 d2 f2 ->
  (fl_proto f1 = 17 -> enc <> 0 -> port_num (fl_dport f1) <> enc) ->
  (fl_proto f2 = 17 -> enc <> 0 -> port_num (fl_dport f2) <> enc) ->
  getHashKey (S fuel1) enc eth1 d1 = Ok (Some (0, k1, None)) ->
  getHashKey (S fuel2) enc eth2 d2 = Ok (Some (0, k2, None)) ->
  f1 <> f2 -> key_bytes k1 <> key_bytes k2.
Proof. exact different_flows_different_keys. Qed.
Print Assumptions C10_different_flows_different_keys.

Example C10_ex : flow_ok ex_flow4 /\ flow_packet ETH_IP ex_p1 ex_flow4 /\ flow_packet ETH_IP ex_p2 ex_flow4 /\
  ex_p1 <> ex_p2 /\ flow_packet ETH_IPV6 ex_s6 ex_sctp6 /\ ex_flow4 <> ex_sctp6.
Proof.
  split; [exact ex_flow4_ok|]. split; [exact ex_p1_flow|]. split; [exact ex_p2_flow|]. split; [discriminate|].
  split; [exact ex_s6_flow|discriminate].
Qed.

(** C11 - what the hash depends on, for native and encapsulated packets of any family;
    [djb2_one_byte]: changing any one byte of what it depends on changes the hash. *)
Theorem C11_hash_depends_on : forall fuel enc eth d f r k fi mode, flow_ok f ->
  (flow_packet eth d f /\ (fl_proto f = 17 -> enc <> 0 -> port_num (fl_dport f) <> enc) \/
   enc <> 0 /\ encap_packet eth d enc f) ->
  getHashKey (S fuel) enc eth d = Ok (Some (r, k, fi)) ->
  hashKey k mode =
    if (fl_proto f =? 132) && (mode =? 1) then djb2 (fl_sport f ++ fl_dport f) else djb2 (flow_key f).
Proof. exact hash_depends. Qed.
Print Assumptions C11_hash_depends_on.

Theorem C11_sctp_ports_only : forall fuel enc1 enc2 eth1 eth2 d1 d2 f1 f2 r1 r2 k1 k2 i1 i2,
  flow_ok f1 -> flow_ok f2 -> fl_proto f1 = 132 -> fl_proto f2 = 132 ->
  fl_sport f1 = fl_sport f2 -> fl_dport f1 = fl_dport f2 ->
  (flow_packet eth1 d1 f1 \/ enc1 <> 0 /\ encap_packet eth1 d1 enc1 f1) ->
  (flow_packet eth2 d2 f2 \/ enc2 <> 0 /\ encap_packet eth2 d2 enc2 f2) ->
  getHashKey (S fuel) enc1 eth1 d1 = Ok (Some (r1, k1, i1)) ->
  getHashKey (S fuel) enc2 eth2 d2 = Ok (Some (r2, k2, i2)) ->
  hashKey k1 1 = hashKey k2 1.
Proof. exact sctp_packets. Qed.
Print Assumptions C11_sctp_ports_only.

Theorem C11_every_byte_counts : forall a x y b, 0 <= x < 256 -> 0 <= y < 256 -> x <> y ->
  djb2 (a ++ x :: b) <> djb2 (a ++ y :: b).
Proof. exact djb2_one_byte. Qed.
Print Assumptions C11_every_byte_counts.

Example C11_ex : flow_ok ex_sctp4 /\ flow_ok ex_sctp6 /\ encap_packet ETH_IP ex_e4 9999 ex_sctp4 /\
  flow_packet ETH_IPV6 ex_s6 ex_sctp6 /\
  exists k1 k2, getHashKey 1 9999 ETH_IP ex_e4 = Ok (Some (4, k1, None)) /\
    getHashKey 1 0 ETH_IPV6 ex_s6 = Ok (Some (0, k2, None)) /\ hashKey k1 1 = hashKey k2 1 /\ hashKey k1 0 <> hashKey k2 0.
Proof.
  split; [exact ex_sctp4_ok|]. split; [exact ex_sctp6_ok|]. split; [exact ex_e4_flow|]. split; [exact ex_s6_flow|].
  eexists. eexists. split; [vm_compute; reflexivity|]. split; [vm_compute; reflexivity|].
  split; [vm_compute; reflexivity|]. vm_compute. discriminate.
Qed.

(** C12 - an ICMP error which quotes a packet from the target has the key of the packets
    from the client.  Partial: quoted packets without IPv6 extension headers, ICMPv6
    types 1 and 2; other ICMPv6 errors do not follow their flow. *)
Theorem C12_icmp_error_follows_flow_partial : forall fuel1 fuel2 enc eth d1 d2 q l4 f r k fi, flow_ok f ->
  flow_packet eth d1 f -> (fl_proto f = 17 -> enc <> 0 -> port_num (fl_dport f) <> enc) ->
  icmp_error eth d2 q ->
  quoted eth d2 q (fl_proto f) (fl_dst f) (fl_src f) l4 -> ports_at d2 l4 (fl_dport f) (fl_sport f) ->
  getHashKey (S fuel1) enc eth d1 = Ok (Some (r, k, fi)) ->
  exists r2, getHashKey (S fuel2) enc eth d2 = Ok (Some (r2, k, None)).
Proof. exact icmp_follows. Qed.
Print Assumptions C12_icmp_error_follows_flow_partial.

Theorem C12_icmp_error_follows_encap_partial : forall fuel1 fuel2 enc eth d1 d2 q l4 f usp udp r k fi, flow_ok f -> enc <> 0 ->
  encap_packet eth d1 enc f -> icmp_error eth d2 q ->
  quoted eth d2 q 17 (fl_dst f) (fl_src f) l4 -> ports_at d2 l4 usp udp -> port_num usp = enc ->
  ports_at d2 (l4 + 8) (fl_dport f) (fl_sport f) ->
  getHashKey (S fuel1) enc eth d1 = Ok (Some (r, k, fi)) ->
  exists r2, getHashKey (S fuel2) enc eth d2 = Ok (Some (r2, k, None)).
Proof. exact icmp_follows_encap. Qed.
Print Assumptions C12_icmp_error_follows_encap_partial.

Theorem C12_other_icmp6_errors_refuted : forall t, t = 3 \/ t = 4 ->
  exists data f, flow_ok f /\ ipv6_header data 0 58 (repeat 1 16) (repeat 2 16) /\ at_ data 40 [t] /\
    quoted ETH_IPV6 data 48 (fl_proto f) (fl_dst f) (fl_src f) 88 /\ ports_at data 88 (fl_dport f) (fl_sport f) /\
    forall k, (exists r fi, getHashKey 100 0 ETH_IPV6 data = Ok (Some (r, k, fi))) -> key_bytes k <> flow_key f.
Proof. exact icmp6_other_refuted. Qed.
Print Assumptions C12_other_icmp6_errors_refuted.

(** The same for every ICMPv6 message of another type (but for echo requests): its key is
    that of no TCP, UDP or SCTP flow. *)
Theorem C12_other_icmp6_key_refuted : forall fuel enc data s d t, ipv6_header data 0 58 s d -> at_ data 40 [t] ->
  t <> 1 -> t <> 2 -> t <> 128 ->
  exists k, getHashKey (S fuel) enc ETH_IPV6 data = Ok (Some (16, k, None)) /\
    key_bytes k = s ++ d ++ [0; 0; 58; 0; 0; 0; 0; 0] /\ forall f, flow_ok f -> key_bytes k <> flow_key f.
Proof. exact icmp6_other_key. Qed.
Print Assumptions C12_other_icmp6_key_refuted.

(** Quoted packets with an options or routing header (from d to s): one of 8 bytes makes
    the parser reject the message, of longer ones the last 8 bytes are taken for the ports. *)
Theorem C12_quoted_header_refuted : forall fuel enc data q h n l s d, icmp_error ETH_IPV6 data q -> ipv6_header data q h d s ->
  h = 0 \/ h = 43 \/ h = 60 -> at_ data (q + 40) [n; l] -> n = 6 \/ n = 17 \/ n = 132 ->
  rfc8200_chain data h (q + 40) n (q + 48 + 8 * l) /\
  (l = 0 -> getHashKey (S (S fuel)) enc ETH_IPV6 data = Ok None) /\
  (1 <= l -> forall x y, ports_at data (q + 40 + 8 * l) x y -> (n = 17 -> enc <> 0 -> port_num x <> enc) ->
   exists k, getHashKey (S (S fuel)) enc ETH_IPV6 data = Ok (Some (8, k, None)) /\ key_bytes k = flow_key (mkFlow s d n y x)).
Proof. exact quoted_ext. Qed.
Print Assumptions C12_quoted_header_refuted.

Example C12_ex2 : icmp_error ETH_IPV6 quoted_pkt 48 /\ ipv6_header quoted_pkt 48 60 (repeat 7 16) (repeat 5 16) /\
  at_ quoted_pkt 88 [17; 1] /\ ports_at quoted_pkt 96 [9; 9] [8; 8] /\ ports_at quoted_pkt 104 [0; 80] [4; 210].
Proof.
  split; [|split; [hdr_solve|split; [at_solve|split; hdr_solve]]].
  right. split; [reflexivity|]. exists (repeat 1 16), (repeat 2 16), 1. split; [hdr_solve|]. split; [at_solve|]. split; [auto|reflexivity].
Qed.

Definition ex_icmp4 := ex4 5 0 0 1 ([3;4;0;0; 0;0;0;0] ++
  [69;0;0;99; 1;2;0;0; 64;6;0;0; 10;0;0;2; 10;0;0;1] ++ [0;80; 4;210; 1;1;1;1]).
Example C12_ex : icmp_error ETH_IP ex_icmp4 28 /\
  quoted ETH_IP ex_icmp4 28 6 (fl_dst ex_flow4) (fl_src ex_flow4) 48 /\
  ports_at ex_icmp4 48 (fl_dport ex_flow4) (fl_sport ex_flow4).
Proof.
  split; [|split].
  - left. split; [reflexivity|]. exists 20, [10;0;0;1], [10;0;0;2], 3. split.
    + unfold ipv4_header. split; [reflexivity|]. split; [reflexivity|]. split; [exists 69; split; [at_solve|reflexivity]|]. hdr_solve.
    + split; [exists 0, 0; hdr_solve|]. split; [at_solve|]. split; [auto|reflexivity].
  - left. split; [reflexivity|]. exists [10;0;0;2], [10;0;0;1], 20. split; [reflexivity|]. split; [reflexivity|].
    split; [|reflexivity]. unfold ipv4_header. split; [reflexivity|]. split; [reflexivity|].
    split; [exists 69; split; [at_solve|reflexivity]|]. hdr_solve.
  - hdr_solve.
Qed.

(** C14 - the first fragment's table key (its addresses with key.id = fragid) is the key
    of the later fragments; the LB-tier hash is the same. *)
Theorem C14_ipv4_fragments_share_key : forall fuel enc src dst id d1 d2 r k fi,
  ipv4_fragment d1 true src dst id -> ipv4_fragment d2 false src dst id ->
  getHashKey fuel enc ETH_IP d1 = Ok (Some (r, k, fi)) ->
  exists k2 fid, getHashKey fuel enc ETH_IP d2 = Ok (Some (2, k2, None)) /\ fi = Some fid /\ Z.odd r = true /\
    key_bytes k2 = frag_table_key (mapped src) (mapped dst) id /\
    with_id k fid = k2 /\ hashKeyAddresses k = hashKeyAddresses k2.
Proof. exact ipv4_fragments. Qed.
Print Assumptions C14_ipv4_fragments_share_key.

Theorem C14_ipv6_fragments_share_key : forall fuel enc src dst id d1 d2 n1 n2 r k fi,
  ipv6_fragment d1 true src dst id n1 -> ipv6_fragment d2 false src dst id n2 ->
  getHashKey (S fuel) enc ETH_IPV6 d1 = Ok (Some (r, k, fi)) ->
  exists k2 fid, getHashKey (S fuel) enc ETH_IPV6 d2 = Ok (Some (2, k2, None)) /\ fi = Some fid /\ Z.odd r = true /\
    key_bytes k2 = frag_table_key src dst id /\
    with_id k fid = k2 /\ hashKeyAddresses k = hashKeyAddresses k2.
Proof. exact ipv6_fragments. Qed.
Print Assumptions C14_ipv6_fragments_share_key.

Theorem C14_different_datagrams_different_keys : forall s1 d1 i1 s2 d2 i2,
  length s1 = length s2 -> length d1 = length d2 -> length i1 = length i2 ->
  frag_table_key s1 d1 i1 = frag_table_key s2 d2 i2 -> s1 = s2 /\ d1 = d2 /\ i1 = i2.
Proof. exact frag_key_inj. Qed.
Print Assumptions C14_different_datagrams_different_keys.

(** The LB-tier hash uses every byte of both addresses: keys that differ in one byte of
    the source or of the destination have different hashes. *)
Theorem C14_lb_tier_hash_uses_both_addresses : forall k k' a x y b,
  k_src k ++ k_dst k = a ++ x :: b -> k_src k' ++ k_dst k' = a ++ y :: b ->
  0 <= x < 256 -> 0 <= y < 256 -> x <> y ->
  hashKeyAddresses k <> hashKeyAddresses k'.
Proof. exact lb_tier_one_byte. Qed.
Print Assumptions C14_lb_tier_hash_uses_both_addresses.

Example C14_ex4 : ipv4_fragment (ex4 5 32 0 6 [4;210; 0;80; 1]) true [10;0;0;1] [10;0;0;2] [1;2] /\
  ipv4_fragment (ex4 5 0 7 6 [1]) false [10;0;0;1] [10;0;0;2] [1;2] /\
  exists k, getHashKey 1 0 ETH_IP (ex4 5 32 0 6 [4;210; 0;80; 1]) = Ok (Some (1, k, Some [1;2;0;0;0;0;0;0])).
Proof.
  split; [|split].
  - split; [reflexivity|]. split; [reflexivity|]. exists 20, 6, true, 0. split.
    + unfold ipv4_header. split; [reflexivity|]. split; [reflexivity|]. split; [exists 69; split; [at_solve|reflexivity]|]. hdr_solve.
    + split; [exists 32, 0; hdr_solve|]. split; [at_solve|auto].
  - split; [reflexivity|]. split; [reflexivity|]. exists 20, 6, false, 7. split.
    + unfold ipv4_header. split; [reflexivity|]. split; [reflexivity|]. split; [exists 69; split; [at_solve|reflexivity]|]. hdr_solve.
    + split; [exists 0, 7; hdr_solve|]. split; [at_solve|lia].
  - eexists. vm_compute. reflexivity.
Qed.

Lemma ex_frag6 : ipv6_fragment (ipv6_pkt 44 ([17;0;0;1;1;2;3;4] ++ [4;210; 0;80; 1;2;3;4;5])) true (repeat 1 16) (repeat 2 16) [1;2;3;4] 17.
Proof.
  split; [reflexivity|]. split; [hdr_solve|]. split; [at_solve|]. split; [at_solve|]. exists 0, 1.
  split; [at_solve|]. lia.
Qed.
Example C14_ex6 : ipv6_fragment (ipv6_pkt 44 ([17;0;0;1;1;2;3;4] ++ [4;210; 0;80; 1;2;3;4;5])) true (repeat 1 16) (repeat 2 16) [1;2;3;4] 17 /\
  ipv6_fragment (ipv6_pkt 44 ([17;0;0;9;1;2;3;4] ++ [4])) false (repeat 1 16) (repeat 2 16) [1;2;3;4] 17.
Proof.
  split; [exact ex_frag6|].
  split; [reflexivity|]. split; [hdr_solve|]. split; [at_solve|]. split; [at_solve|]. exists 0, 9.
  split; [at_solve|]. lia.
Qed.

(** C15 - all reads inside the packet: IPv4, if an ICMP header is complete; IPv6, unless
    the header chain (as the code walks it) reaches a fragment header which is truncated
    or of a first fragment, or a truncated ICMPv6 header.  Without these conditions it is
    false. *)
Theorem C15_ipv4_reads_inside_partial : forall fuel enc data,
  (forall b0, znth data 0 = Some b0 -> znth data 9 = Some 1 -> 4 * (b0 mod 16) + 8 <= zlen data) ->
  exists r, getHashKey fuel enc ETH_IP data = Ok r.
Proof. exact ipv4_good. Qed.
Print Assumptions C15_ipv4_reads_inside_partial.

Theorem C15_ipv6_reads_inside_partial : forall fuel enc data,
  Forall (fun b => 0 <= b < 256) data -> zlen data < Z.of_nat fuel ->
  (exists r, getHashKey fuel enc ETH_IPV6 data = Ok r) \/
  exists nxt h o, znth data 6 = Some nxt /\ walk data nxt 40 h o /\
    (h = 44 /\ (zlen data < o + 8 \/ exists hi lo, znth data (o + 2) = Some hi /\ znth data (o + 3) = Some lo /\
                                    Z.land (hi + 256 * lo) 63743 = 0) \/
     h = 58 /\ zlen data < o + 8).
Proof. exact ipv6_good. Qed.
Print Assumptions C15_ipv6_reads_inside_partial.

Theorem C15_reads_outside_refuted : exists d4 d6, Forall (fun b => 0 <= b < 256) d4 /\ Forall (fun b => 0 <= b < 256) d6 /\
  (forall fuel enc, getHashKey fuel enc ETH_IP d4 = UB) /\
  (forall fuel enc, getHashKey (S fuel) enc ETH_IPV6 d6 = UB).
Proof. exact oob_refuted. Qed.
Print Assumptions C15_reads_outside_refuted.

Example C15_ex : (forall b0, znth ex_icmp4 0 = Some b0 -> znth ex_icmp4 9 = Some 1 -> 4 * (b0 mod 16) + 8 <= zlen ex_icmp4) /\
  Forall (fun b => 0 <= b < 256) ex_s6 /\ walk ex_s6 132 40 132 40.
Proof.
  split; [|split].
  - intros b0 H _. vm_compute in H. injection H as <-. vm_compute. discriminate.
  - apply bytes_chk. reflexivity.
  - apply walk_end. left. reflexivity.
Qed.

(** C16 - IPv4 parsing always terminates; IPv6 parsing does unless the chain reaches a
    first-fragment header or a truncated one; one 48-byte packet loops for ever. *)
Theorem C16_ipv4_terminates : forall fuel enc data, getHashKey fuel enc ETH_IP data <> Fuel.
Proof. exact ipv4_always_terminates. Qed.
Print Assumptions C16_ipv4_terminates.

Theorem C16_ipv6_terminates_partial : forall fuel enc data,
  Forall (fun b => 0 <= b < 256) data -> zlen data < Z.of_nat fuel ->
  (exists r, getHashKey fuel enc ETH_IPV6 data = Ok r) \/
  exists nxt h o, znth data 6 = Some nxt /\ walk data nxt 40 h o /\
    (h = 44 /\ (zlen data < o + 8 \/ exists hi lo, znth data (o + 2) = Some hi /\ znth data (o + 3) = Some lo /\
                                    Z.land (hi + 256 * lo) 63743 = 0) \/
     h = 58 /\ zlen data < o + 8).
Proof. exact ipv6_good. Qed.
Print Assumptions C16_ipv6_terminates_partial.

Theorem C16_endless_loop_refuted : exists data, Forall (fun b => 0 <= b < 256) data /\
  forall fuel, getHashKey fuel 0 ETH_IPV6 data = Fuel.
Proof. exact loop_refuted. Qed.
Print Assumptions C16_endless_loop_refuted.

Example C16_ex : Forall (fun b => 0 <= b < 256) ex_s6 /\ zlen ex_s6 < Z.of_nat 50.
Proof. split; [apply bytes_chk; reflexivity|reflexivity]. Qed.

(** C17 - the upper-layer header is found if there are no extension headers.  Every
    packet whose first extension header is an 8-byte options or routing header is
    rejected, and a 16-byte one leads to wrong ports. *)
Theorem C17_no_extension_headers_partial : forall fuel enc data f, flow_ok f ->
  ipv6_header data 0 (fl_proto f) (fl_src f) (fl_dst f) -> ports_at data 40 (fl_sport f) (fl_dport f) ->
  (fl_proto f = 17 -> enc <> 0 -> port_num (fl_dport f) <> enc) ->
  rfc8200_chain data (fl_proto f) 40 (fl_proto f) 40 /\
  exists k, getHashKey (S fuel) enc ETH_IPV6 data = Ok (Some (0, k, None)) /\ key_bytes k = flow_key f.
Proof. exact no_ext_key. Qed.
Print Assumptions C17_no_extension_headers_partial.

Theorem C17_short_extension_header_rejected : forall fuel enc data h n s d, ipv6_header data 0 h s d ->
  h = 0 \/ h = 43 \/ h = 60 -> at_ data 40 [n; 0] -> getHashKey (S fuel) enc ETH_IPV6 data = Ok None.
Proof. exact ext8_rejected. Qed.
Print Assumptions C17_short_extension_header_rejected.

Theorem C17_hop_by_hop_refuted : exists data src dst sp dp,
  ipv6_header data 0 0 src dst /\ rfc8200_chain data 0 40 6 48 /\ ports_at data 48 sp dp /\
  forall fuel, getHashKey (S fuel) 0 ETH_IPV6 data = Ok None.
Proof. exact hbh_refuted. Qed.
Print Assumptions C17_hop_by_hop_refuted.

Theorem C17_destination_options_refuted : exists data src dst sp dp k,
  ipv6_header data 0 60 src dst /\ rfc8200_chain data 60 40 6 56 /\ ports_at data 56 sp dp /\
  getHashKey 100 0 ETH_IPV6 data = Ok (Some (0, k, None)) /\ key_bytes k <> flow_key (mkFlow src dst 6 sp dp).
Proof. exact dstopt_refuted. Qed.
Print Assumptions C17_destination_options_refuted.

(** In every packet with one options or routing header of 8 * (l + 1) bytes, l >= 1, the
    ports of the key are bytes of that header: its last 8 bytes begin with x and y.  The
    ports of the packet, 8 bytes further, have no influence. *)
Theorem C17_ports_from_header_refuted : forall fuel enc data h n l s d x y, ipv6_header data 0 h s d ->
  h = 0 \/ h = 43 \/ h = 60 -> at_ data 40 [n; l] -> 1 <= l -> n = 6 \/ n = 17 \/ n = 132 ->
  ports_at data (40 + 8 * l) x y -> (n = 17 -> enc <> 0 -> port_num y <> enc) ->
  rfc8200_chain data h 40 n (48 + 8 * l) /\
  exists k, getHashKey (S (S fuel)) enc ETH_IPV6 data = Ok (Some (0, k, None)) /\ key_bytes k = flow_key (mkFlow s d n x y).
Proof. exact ext_ports. Qed.
Print Assumptions C17_ports_from_header_refuted.

(** The addresses are right whatever headers follow (also in first and other fragments),
    in every key that is not that of a quoted packet (bit 3 of the return code), and so is
    the hash the LB tier uses. *)
Theorem C17_addresses : forall fuel enc data h s d r k f, ipv6_header data 0 h s d ->
  getHashKey fuel enc ETH_IPV6 data = Ok (Some (r, k, f)) -> Z.testbit r 3 = false ->
  firstn 32 (key_bytes k) = s ++ d /\ hashKeyAddresses k = djb2 (s ++ d).
Proof. exact ext_addresses. Qed.
Print Assumptions C17_addresses.

Example C17_ex2 : ipv6_header dst_pkt 0 60 (repeat 1 16) (repeat 2 16) /\ at_ dst_pkt 40 [6; 1] /\
  ports_at dst_pkt 48 [9; 9] [9; 9] /\ ports_at dst_pkt 56 [0; 80] [4; 210] /\
  exists k, getHashKey 9 0 ETH_IPV6 dst_pkt = Ok (Some (0, k, None)) /\ Z.testbit 0 3 = false.
Proof. split; [hdr_solve|]. split; [at_solve|]. split; [hdr_solve|]. split; [hdr_solve|]. eexists. split; [vm_compute; reflexivity|reflexivity]. Qed.

Example C17_ex : flow_ok ex_sctp6 /\ ipv6_header ex_s6 0 132 (repeat 1 16) (repeat 2 16) /\ ports_at ex_s6 40 [4;210] [0;80] /\
  ipv6_header hbh_pkt 0 0 (repeat 1 16) (repeat 2 16) /\ at_ hbh_pkt 40 [6; 0].
Proof. split; [exact ex_sctp6_ok|]. split; [hdr_solve|]. split; [hdr_solve|]. split; [hdr_solve|at_solve]. Qed.

(** C18 - an IPv4 packet with one byte after the IP header, and for TCP, UDP and SCTP
    with 13 bytes, is not rejected.  A packet consisting of the IP header only is always
    rejected. *)
Theorem C18_ipv4_not_rejected_partial : forall fuel enc data hl p s d mf fo,
  ipv4_header data 0 hl p s d -> ipv4_frag data 0 mf fo -> 20 < zlen data -> p <> 1 ->
  (p = 6 \/ p = 17 \/ p = 132 -> fo = 0 -> hl + 12 < zlen data) ->
  getHashKey fuel enc ETH_IP data <> Ok None.
Proof. exact ipv4_not_rejected. Qed.
Print Assumptions C18_ipv4_not_rejected_partial.

Theorem C18_header_only_refuted : (exists d s t, ipv4_header d 0 20 59 s t /\ ipv4_frag d 0 false 0 /\
    forall fuel enc, getHashKey fuel enc ETH_IP d = Ok None) /\
  (exists d s t, ipv6_header d 0 59 s t /\ forall fuel enc, getHashKey fuel enc ETH_IPV6 d = Ok None).
Proof. exact bare_refuted. Qed.
Print Assumptions C18_header_only_refuted.

Example C18_ex : ipv4_header (ex4 5 0 0 50 [1]) 0 20 50 [10;0;0;1] [10;0;0;2] /\ ipv4_frag (ex4 5 0 0 50 [1]) 0 false 0 /\
  20 < zlen (ex4 5 0 0 50 [1]).
Proof.
  split; [|split; [exists 0, 0; hdr_solve|reflexivity]].
  unfold ipv4_header. split; [reflexivity|]. split; [reflexivity|]. split; [exists 69; split; [at_solve|reflexivity]|]. hdr_solve.
Qed.

(** C42 - UDP-encapsulated SCTP has the key and the hash of native SCTP. *)
Theorem C42_encapsulated_like_native : forall fuel1 fuel2 enc eth d1 d2 f mode r1 k1 i1 r2 k2 i2, flow_ok f -> enc <> 0 ->
  fl_proto f = 132 -> encap_packet eth d1 enc f -> flow_packet eth d2 f ->
  getHashKey (S fuel1) enc eth d1 = Ok (Some (r1, k1, i1)) ->
  getHashKey (S fuel2) 0 eth d2 = Ok (Some (r2, k2, i2)) ->
  k1 = k2 /\ key_bytes k1 = flow_key f /\ hashKey k1 mode = hashKey k2 mode.
Proof. exact encap_like_native. Qed.
Print Assumptions C42_encapsulated_like_native.

Theorem C42_encapsulated_key : forall fuel enc eth d f, flow_ok f -> enc <> 0 -> encap_packet eth d enc f ->
  exists k, getHashKey (S fuel) enc eth d = Ok (Some (4, k, None)) /\ key_bytes k = flow_key f.
Proof. exact encap_accepted. Qed.
Print Assumptions C42_encapsulated_key.

Example C42_ex : flow_ok ex_sctp4 /\ encap_packet ETH_IP ex_e4 9999 ex_sctp4.
Proof. split; [exact ex_sctp4_ok|exact ex_e4_flow]. Qed.

(** C59 - the first fragment of a packet has the key of unfragmented packets of the flow:
    true for IPv4; for IPv6 the key never contains the ports but bytes of the fragment
    header. *)
Theorem C59_ipv4_first_fragment_like_whole_packet : forall fuel1 fuel2 enc d1 d2 f s4 d4 l4, flow_ok f ->
  fl_src f = mapped s4 -> fl_dst f = mapped d4 ->
  ipv4_header d1 0 l4 (fl_proto f) s4 d4 -> ipv4_frag d1 0 true 0 -> ports_at d1 l4 (fl_sport f) (fl_dport f) ->
  flow_packet ETH_IP d2 f ->
  (fl_proto f = 17 -> enc <> 0 -> port_num (fl_dport f) <> enc) ->
  exists fi k, getHashKey fuel1 enc ETH_IP d1 = Ok (Some (1, k, fi)) /\
               getHashKey (S fuel2) enc ETH_IP d2 = Ok (Some (0, k, None)).
Proof. exact ipv4_first_like_whole. Qed.
Print Assumptions C59_ipv4_first_fragment_like_whole_packet.

Theorem C59_ipv6_first_fragment_refuted : forall fuel data src dst id nxt hi lo, ipv6_fragment data true src dst id nxt ->
  nxt = 6 \/ nxt = 17 \/ nxt = 132 -> at_ data 42 [hi; lo] ->
  exists fi k, getHashKey (S (S fuel)) 0 ETH_IPV6 data = Ok (Some (1, k, fi)) /\
    key_bytes k = flow_key (mkFlow src dst nxt [nxt; 0] [hi; lo]).
Proof. exact ipv6_first_ignores_ports. Qed.
Print Assumptions C59_ipv6_first_fragment_refuted.

Example C59_ex4 : exists l4, ipv4_header (ex4 5 32 0 6 [4;210; 0;80; 1]) 0 l4 6 [10;0;0;1] [10;0;0;2] /\
  ipv4_frag (ex4 5 32 0 6 [4;210; 0;80; 1]) 0 true 0 /\ ports_at (ex4 5 32 0 6 [4;210; 0;80; 1]) l4 [4;210] [0;80].
Proof.
  exists 20. split; [|split; [exists 32, 0; hdr_solve|hdr_solve]].
  unfold ipv4_header. split; [reflexivity|]. split; [reflexivity|]. split; [exists 69; split; [at_solve|reflexivity]|]. hdr_solve.
Qed.
Example C59_ex6 : exists data, ipv6_fragment data true (repeat 1 16) (repeat 2 16) [1;2;3;4] 17 /\ at_ data 42 [0; 1].
Proof. eexists. split; [exact ex_frag6|at_solve]. Qed.
