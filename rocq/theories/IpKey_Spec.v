(** Specification vocabulary for packets (C10-C18, C42, C59): packet formats as in
    RFC 791, 792, 4443, 8200, 768, 9260, described by byte positions. *)
From Verif Require Import Base.

(** The bytes [l] are found at offset [off] of the packet. *)
Definition at_ (data : list Z) (off : Z) (l : list Z) : Prop :=
  0 <= off /\ off + zlen l <= zlen data /\ firstn (length l) (skipn (Z.to_nat off) data) = l.

(** A byte string of length n. *)
Definition bytes (n : nat) (l : list Z) : Prop := length l = n /\ Forall (fun b => 0 <= b < 256) l.

Definition ETH_IP : Z := 2048.
Definition ETH_IPV6 : Z := 34525.

(** Addresses of IPv4 packets are represented as IPv4-mapped IPv6 addresses. *)
Definition mapped (a : list Z) : list Z := [0;0;0;0; 0;0;0;0; 0;0;255;255] ++ a.

(** The five-tuple.  Ports are two bytes in network order. *)
Record flow := mkFlow {
  fl_src : list Z; fl_dst : list Z; fl_proto : Z; fl_sport : list Z; fl_dport : list Z }.

Definition flow_ok (f : flow) : Prop :=
  bytes 16 (fl_src f) /\ bytes 16 (fl_dst f) /\ (fl_proto f = 6 \/ fl_proto f = 17 \/ fl_proto f = 132) /\
  bytes 2 (fl_sport f) /\ bytes 2 (fl_dport f).

(** The flow in the other direction. *)
Definition reverse (f : flow) : flow :=
  mkFlow (fl_dst f) (fl_src f) (fl_proto f) (fl_dport f) (fl_sport f).

Definition port_num (p : list Z) : Z := 256 * nth 0 p 0 + nth 1 p 0.

(** A port pair at offset [off], followed by at least one more byte (the headers of
    TCP, UDP and SCTP are longer than the ports). *)
Definition ports_at (data : list Z) (off : Z) (sp dp : list Z) : Prop :=
  length sp = 2%nat /\ length dp = 2%nat /\
  at_ data off sp /\ at_ data (off + 2) dp /\ off + 4 < zlen data.

(** An IPv4 header at offset [o] with header length [hl] bytes. *)
Definition ipv4_header (data : list Z) (o hl proto : Z) (src dst : list Z) : Prop :=
  length src = 4%nat /\ length dst = 4%nat /\
  (exists b0, at_ data o [b0] /\ 4 * (b0 mod 16) = hl) /\ 20 <= hl /\
  at_ data (o + 9) [proto] /\ at_ data (o + 12) src /\ at_ data (o + 16) dst.

(** Flags and fragment offset: MF, and the offset in units of 8 bytes. *)
Definition ipv4_frag (data : list Z) (o : Z) (mf : bool) (fragoff : Z) : Prop :=
  exists hi lo, at_ data (o + 6) [hi; lo] /\ 0 <= hi < 256 /\ 0 <= lo < 256 /\
    mf = Z.testbit hi 5 /\ fragoff = 256 * (hi mod 32) + lo.

(** An IPv6 header at offset [o]. *)
Definition ipv6_header (data : list Z) (o nxt : Z) (src dst : list Z) : Prop :=
  length src = 16%nat /\ length dst = 16%nat /\
  at_ data (o + 6) [nxt] /\ at_ data (o + 8) src /\ at_ data (o + 24) dst.

(** An IP packet of family [eth] whose TCP/UDP/SCTP header (protocol [proto]) starts
    at offset [l4]; not a fragment, no IPv6 extension headers. *)
Definition l4_packet (eth : Z) (data : list Z) (proto : Z) (src dst : list Z) (l4 : Z) : Prop :=
  (eth = ETH_IP /\ exists s4 d4, src = mapped s4 /\ dst = mapped d4 /\
     ipv4_header data 0 l4 proto s4 d4 /\ ipv4_frag data 0 false 0) \/
  (eth = ETH_IPV6 /\ l4 = 40 /\ ipv6_header data 0 proto src dst).

(** A packet of flow [f], with the ports at offset [l4] and plain (not encapsulated). *)
Definition flow_packet (eth : Z) (data : list Z) (f : flow) : Prop :=
  exists l4, l4_packet eth data (fl_proto f) (fl_src f) (fl_dst f) l4 /\
    ports_at data l4 (fl_sport f) (fl_dport f).

(** A UDP packet to port [port] which carries an SCTP packet (RFC 6951); [f] is the
    SCTP flow. *)
Definition encap_packet (eth : Z) (data : list Z) (port : Z) (f : flow) : Prop :=
  fl_proto f = 132 /\ exists l4 sp dp, l4_packet eth data 17 (fl_src f) (fl_dst f) l4 /\
    ports_at data l4 sp dp /\ port_num dp = port /\ ports_at data (l4 + 8) (fl_sport f) (fl_dport f).

(** The bytes of the key of a flow: both addresses, two 0 bytes, the protocol as a
    16-bit little-endian number, source and destination port. *)
Definition flow_key (f : flow) : list Z :=
  fl_src f ++ fl_dst f ++ [0; 0; fl_proto f; 0] ++ fl_sport f ++ fl_dport f.

(** An ICMP error message, not fragmented, with the quoted packet at offset [q]. *)
Definition icmp_error (eth : Z) (data : list Z) (q : Z) : Prop :=
  (eth = ETH_IP /\ exists hl s d t, ipv4_header data 0 hl 1 s d /\ ipv4_frag data 0 false 0 /\
     at_ data hl [t] /\ (t = 3 \/ t = 4 \/ t = 5 \/ t = 11) /\ q = hl + 8) \/
  (eth = ETH_IPV6 /\ exists s d t, ipv6_header data 0 58 s d /\
     at_ data 40 [t] /\ (t = 1 \/ t = 2) /\ q = 48).

(** The packet quoted at offset [q] (possibly cut off after the ports) has TCP, UDP or
    SCTP header at offset [l4]; it is a complete packet or first fragment, and has no
    IPv6 extension headers. *)
Definition quoted (eth : Z) (data : list Z) (q proto : Z) (src dst : list Z) (l4 : Z) : Prop :=
  (eth = ETH_IP /\ exists s4 d4 hl, src = mapped s4 /\ dst = mapped d4 /\
     ipv4_header data q hl proto s4 d4 /\ l4 = q + hl) \/
  (eth = ETH_IPV6 /\ l4 = q + 40 /\ ipv6_header data q proto src dst).

(** The table key under which a fragment is filed: addresses, and the identification
    field padded with zeros to 8 bytes. *)
Definition frag_table_key (src dst id : list Z) : list Z := src ++ dst ++ id ++ repeat 0 (8 - length id).

(** An IPv4 fragment of the datagram (src, dst, id), [first] or not. *)
Definition ipv4_fragment (data : list Z) (first : bool) (src dst id : list Z) : Prop :=
  length id = 2%nat /\ 20 < zlen data /\
  exists hl proto mf fo, ipv4_header data 0 hl proto src dst /\ ipv4_frag data 0 mf fo /\ at_ data 4 id /\
    if first then mf = true /\ fo = 0 else fo <> 0.

(** An IPv6 fragment (fragment header right after the IPv6 header). *)
Definition ipv6_fragment (data : list Z) (first : bool) (src dst id : list Z) (nxt : Z) : Prop :=
  length id = 4%nat /\
  ipv6_header data 0 44 src dst /\ at_ data 40 [nxt; 0] /\ at_ data 44 id /\
  exists hi lo, at_ data 42 [hi; lo] /\ 0 <= hi < 256 /\ 0 <= lo < 256 /\
    if first then 256 * hi + lo < 8 else 8 <= 256 * hi + lo.

(** The chain of IPv6 headers from a header of type [h] at [o] to the upper-layer
    header of type [h'] at [o'], according to RFC 8200 section 4: the length of the
    options and routing headers is 8 * (length field + 1), the one of the fragment
    header 8. *)
Inductive rfc8200_chain (data : list Z) : Z -> Z -> Z -> Z -> Prop :=
| ch_end : forall h o, h <> 0 -> h <> 43 -> h <> 44 -> h <> 60 -> rfc8200_chain data h o h o
| ch_opt : forall h o n l h' o', h = 0 \/ h = 43 \/ h = 60 -> at_ data o [n; l] ->
    rfc8200_chain data n (o + 8 * (l + 1)) h' o' -> rfc8200_chain data h o h' o'
| ch_frag : forall o n h' o', at_ data o [n; 0; 0] ->
    rfc8200_chain data n (o + 8) h' o' -> rfc8200_chain data 44 o h' o'.

Definition ext_type (h : Z) : bool := (h =? 0) || (h =? 43) || (h =? 44) || (h =? 60).

(** Walking the extension headers the way the code does. *)
Inductive walk (data : list Z) : Z -> Z -> Z -> Z -> Prop :=
| walk_end : forall h o, ext_type h = false \/ h = 44 -> walk data h o h o
| walk_step : forall h o n l h' o', ext_type h = true -> h <> 44 ->
    znth data o = Some n -> znth data (o + 1) = Some l -> l <> 0 ->
    walk data n (o + 8 * l) h' o' -> walk data h o h' o'.
