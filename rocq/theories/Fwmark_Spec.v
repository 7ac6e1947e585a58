(** The texts of the fwmark command and what they denote (C49). *)
From Coq Require Import String.
From Verif Require Import Base Cstr_Model IpKey_Model IpKey_Spec Maglev_Model Rangeset_Spec Flow_Model Flow_Spec FlowLb_Model Fwmark_Model.

(** A port in network byte order *)
Definition port_bytes (n : Z) : list Z := [n / 256; n mod 256].

(** ** getaddrinfo with numeric host and service and no family: struct sockaddr_in6 (28 bytes) for
    what inet_pton reads as an IPv6 address, struct sockaddr_in (16 bytes) for a.b.c.d *)
Definition in6_bytes (a : list Z) (n : Z) : list Z := [10; 0] ++ port_bytes n ++ [0; 0; 0; 0] ++ a ++ [0; 0; 0; 0].
Definition in4_bytes (q : list Z) (n : Z) : list Z := [2; 0] ++ port_bytes n ++ q ++ [0; 0; 0; 0; 0; 0; 0; 0].
Definition gai_ok (L : libc) (gai : chars -> chars -> option (list Z)) : Prop :=
  (forall h p a n, In 58 h -> pton L h = Some a -> is_dec p n -> n <= 65535 -> gai h p = Some (in6_bytes a n)) /\
  (forall h p q n, is_quad h q -> is_dec p n -> n <= 65535 -> gai h p = Some (in4_bytes q n)).

(** "[address]:port" or "a.b.c.d:port" *)
Definition endpoint (L : libc) (s : chars) (a : list Z) (n : Z) : Prop :=
  zlen s <= 60 /\ n <= 65535 /\
  ((exists h p, s = str "[" ++ h ++ str "]:" ++ p /\ In 58 h /\ ~ In 93 h /\ pton L h = Some a /\ is_dec p n) \/
   (exists h p q, s = h ++ str ":" ++ p /\ is_quad h q /\ a = mapped q /\ is_dec p n)).

(** The mode, "1" if not given *)
Definition mode_text (s : option chars) (n : Z) : Prop :=
  match s with None => n = 1 | Some t => is_dec t n /\ n <= 2147483647 end.

(** The process without an LB tier *)
Definition untiered (h : hconf) : hconf :=
  mkH (h_ping h) (h_mode h) (h_notargets h) (h_nolb h) None (h_frag h) (h_tun h) (h_trace h) (h_lib h).

(** The 5-tuple of the command line *)
Definition asked (L : libc) (src dst : chars) (proto : chars) (f : flow) : Prop :=
  (exists n, endpoint L src (fl_src f) n /\ fl_sport f = port_bytes n) /\
  (exists n, endpoint L dst (fl_dst f) n /\ fl_dport f = port_bytes n) /\ proto_text proto (fl_proto f).

(** The verdict according to what was printed; [none] is the mark for "no targets" *)
Definition predicted (o : printed) (none v : Z) : Prop :=
  exists i ai fw, o_table o = Some (i, ai, fw) /\ v = if fw <? 0 then none else fw.

(** A fragment of a datagram from [a] to [b] with identification [id], the first or another *)
Definition part (eth : Z) (data : list Z) (first : bool) (a b id : list Z) : Prop :=
  (eth = ETH_IP /\ exists s d, a = mapped s /\ b = mapped d /\ ipv4_fragment data first s d id) \/
  (eth = ETH_IPV6 /\ exists nxt, ipv6_fragment data first a b id nxt).
