(** What xlb should do (C67). *)
From Verif Require Import Base IpKey_Spec Flow_Spec Fwmark_Spec.

(** An unfragmented packet from a to b of a protocol other than ICMP, without
    IPv6 extension headers *)
Definition ordinary (eth : Z) (data a b : list Z) : Prop :=
  (eth = ETH_IP /\ exists hl p s d, a = mapped s /\ b = mapped d /\ ipv4_header data 0 hl p s d /\
     ipv4_frag data 0 false 0 /\ p <> 1 /\ 20 < zlen data) \/
  (eth = ETH_IPV6 /\ exists p, ipv6_header data 0 p a b /\ p <> 58 /\ ext_type p = false).

(** A packet that belongs to the traffic from a to b: an ordinary one, any
    fragment, an ICMP message that quotes no packet, or one that quotes a
    packet from b to a (the header of the quoted packet is complete) *)
Definition belongs (eth : Z) (data a b : list Z) : Prop :=
  ordinary eth data a b \/ (exists first id, part eth data first a b id) \/
  (exists t, icmp_message eth data t a b /\ ~ quoting eth t) \/
  (exists q p l4, icmp_error eth data q /\ quoted eth data q p b a l4 /\ (eth = ETH_IPV6 -> ext_type p = false)).
