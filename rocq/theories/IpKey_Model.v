(** Model of the hash key computation: src/lib/iputils.c:27-378, src/lib/hash.c.

    A packet is the list of its bytes; [zlen data] is the C parameter len.  Pointers
    into the packet are offsets from data; every read is checked and a read outside
    the packet gives [UB].  Forming a pointer outside the packet without reading it is
    not treated as UB.  Host byte order is little-endian (the byte order of all the
    platforms the project is built for); struct ctKey is modelled by its bytes. *)
From Verif Require Import Base.

(** conntrack.h:48-62, struct ctKey: the two addresses and the 8-byte union of
    [id] and {user_defined, proto, src, dst}. *)
Record key := mkKey { k_src : list Z; k_dst : list Z; k_id : list Z }.

(** iputils.c:356, memset(key, 0, ...). *)
Definition key0 : key := mkKey (repeat 0 16) (repeat 0 16) (repeat 0 8).

(** Store [new] at byte offset [off] of the union. *)
Definition splice (l : list Z) (off : nat) (new : list Z) : list Z :=
  firstn off l ++ new ++ skipn (off + length new) l.

(** key->id = x, where x is a 16 or 32-bit field in memory order [l]. *)
Definition id_bytes (l : list Z) : list Z := l ++ repeat 0 (8 - length l).
Definition set_id (k : key) (l : list Z) : key := mkKey (k_src k) (k_dst k) (id_bytes l).
(** key->ports.proto = p, an 8-bit value. *)
Definition set_proto (k : key) (p : Z) : key := mkKey (k_src k) (k_dst k) (splice (k_id k) 2 [p; 0]).
(** key->ports.src = s; key->ports.dst = d. *)
Definition set_ports (k : key) (s d : list Z) : key :=
  mkKey (k_src k) (k_dst k) (splice (splice (k_id k) 4 s) 6 d).
Definition set_addrs (k : key) (s d : list Z) : key := mkKey s d (k_id k).

(** iputils.c:41-47: ::ffff:a.b.c.d (the other bytes are 0 since the memset). *)
Definition map4 (a : list Z) : list Z := repeat 0 10 ++ [255; 255] ++ a.

(** Reading n bytes at an offset. *)
Definition rdn (data : list Z) (off : Z) (n : nat) : outcome (list Z) :=
  if (0 <=? off) && (off + Z.of_nat n <=? zlen data)
  then Ok (firstn n (skipn (Z.to_nat off) data)) else UB.

(** ntohs of two bytes in memory. *)
Definition be16 (l : list Z) : Z := nth 0 l 0 * 256 + nth 1 l 0.

(** iputils.h:9. *)
Definition in_bounds (p o e : Z) : bool := p + o <? e.

(** iputils.c:27-38. *)
Definition is_ext (h : Z) : bool := (h =? 0) || (h =? 43) || (h =? 44) || (h =? 60).

(** TCP, UDP, SCTP: iputils.c:74-78, 156-160, 221-225, 322-326. *)
Definition is_l4 (p : Z) : bool := (p =? 6) || (p =? 17) || (p =? 132).

(** Result of a call: [None] is -1 (what is left in *key is not modelled then);
    otherwise return code, key, and the value of *fragid when it was written.  The
    fragid pointer is not NULL in any caller. *)
Definition res := option (Z * key * option (list Z)).

(** The common tail of the four functions (iputils.c:83-103, 165-183, 230-250,
    331-349): bounds check of the ports, the check for UDP encapsulation (of the
    source port in a quoted packet), and the ports, swapped in a quoted packet. *)
Definition ports_tail (swap : bool) (data : list Z) (k : key) (udpencap rc proto ports : Z)
           (fragid : option (list Z)) : outcome res :=
  if negb (in_bounds ports 4 (zlen data)) then Ok None
  else
    do encap <- (if negb (udpencap =? 0) && (proto =? 17) then
                   do p <- rdn data (if swap then ports else ports + 2) 2;
                   Ok (be16 p =? udpencap)
                 else Ok false);
    if (encap : bool) && negb (in_bounds (ports + 8) 4 (zlen data)) then Ok None
    else
      let k := if encap then set_proto k 132 else k in
      let rc := if encap then rc + 4 else rc in
      let ports := if encap then ports + 8 else ports in
      do p0 <- rdn data ports 2;
      do p1 <- rdn data (ports + 2) 2;
      let k := if swap then set_ports k p1 p0 else set_ports k p0 p1 in
      Ok (Some (rc, k, fragid)).

(** iputils.c:51-104. *)
Definition getInnerHashKeyIpv4 (k : key) (udpencap ihdr : Z) (data : list Z) : outcome res :=
  let hdr := ihdr + 8 in
  if negb (in_bounds hdr 20 (zlen data)) then Ok None
  else
    do b0 <- aget data hdr;
    if b0 mod 16 <? 5 then Ok None
    else
      do d <- rdn data (hdr + 16) 4;
      do s <- rdn data (hdr + 12) 4;
      do p <- aget data (hdr + 9);
      let k := set_proto (set_addrs k (map4 d) (map4 s)) p in
      if negb (is_l4 p) then Ok (Some (8 + 32, k, None))
      else ports_tail true data k udpencap 8 p (hdr + 4 * (b0 mod 16)) None.

(** iputils.c:136-139 *)
Definition icmp4_error (t : Z) : bool := (t =? 3) || (t =? 4) || (t =? 5) || (t =? 11).

(** iputils.c:106-184. *)
Definition getHashKeyIpv4 (k : key) (udpencap : Z) (data : list Z) : outcome res :=
  if negb (in_bounds 0 20 (zlen data)) then Ok None
  else
    do b0 <- aget data 0;
    let ihl := b0 mod 16 in
    if ihl <? 5 then Ok None
    else
      do fo <- rdn data 6 2;
      do s <- rdn data 12 4;
      do d <- rdn data 16 4;
      do id <- rdn data 4 2;
      do p <- aget data 9;
      let frag := negb (Z.land (be16 fo) 16383 =? 0) in (* IP_OFFMASK|IP_MF = 0x3fff *)
      let first := Z.land (be16 fo) 8191 =? 0 in         (* IP_OFFMASK = 0x1fff *)
      if frag && negb first then
        Ok (Some (2, set_id (set_addrs k (map4 s) (map4 d)) id, None))
      else
        let rc := if frag then 1 else 0 in
        let fragid := if frag then Some (id_bytes id) else None in
        if p =? 1 then (* IPPROTO_ICMP *)
          let ihdr := 4 * ihl in
          do t <- aget data ihdr;
          if icmp4_error t then
            if frag then Ok None else getInnerHashKeyIpv4 k udpencap ihdr data
          else
            let k := set_addrs k (map4 s) (map4 d) in
            do k <- (if t =? 8 then do i <- rdn data (ihdr + 4) 2; Ok (set_id k i) else Ok k);
            Ok (Some (rc + 16, set_proto k 1, fragid))
        else
          let k := set_proto (set_addrs k (map4 s) (map4 d)) p in
          if negb (is_l4 p) then Ok (Some (rc + 32, k, fragid))
          else ports_tail false data k udpencap rc p (4 * ihl) fragid.

(** iputils.c:206-214 ([stop] = false) and 266-276 ([stop] = true: leave the loop at a
    fragment header).  [None]: return -1. *)
Fixpoint ext_loop (fuel : nat) (stop : bool) (data : list Z) (htype hdr : Z)
  : outcome (option (Z * Z)) :=
  match fuel with
  | O => Fuel
  | S f =>
      if negb (is_ext htype) then Ok (Some (htype, hdr))
      else if stop && (htype =? 44) then Ok (Some (htype, hdr))
      else if negb (in_bounds hdr 2 (zlen data)) then Ok None
      else
        do nxt <- aget data hdr;
        do l <- aget data (hdr + 1);
        if l =? 0 then Ok None else ext_loop f stop data nxt (hdr + l * 8)
  end.

(** iputils.c:284-288: the loop for a first fragment, without any bounds check. *)
Fixpoint first_frag_loop (fuel : nat) (data : list Z) (htype hdr : Z) : outcome (Z * Z) :=
  match fuel with
  | O => Fuel
  | S f =>
      if negb (is_ext htype) then Ok (htype, hdr)
      else
        do nxt <- aget data hdr;
        do l <- aget data (hdr + 1);
        first_frag_loop f data nxt (hdr + l * 8)
  end.

(** iputils.c:188-251. *)
Definition getInnerHashKeyIpv6 (fuel : nat) (k : key) (udpencap ihdr : Z) (data : list Z) : outcome res :=
  let ip6 := ihdr + 8 in
  if negb (in_bounds ip6 40 (zlen data)) then Ok None
  else
    do nxt <- aget data (ip6 + 6);
    do r <- ext_loop fuel false data nxt (ip6 + 40);
    match r with
    | None => Ok None
    | Some (htype, hdr) =>
        do s <- rdn data (ip6 + 8) 16;
        do d <- rdn data (ip6 + 24) 16;
        let k := set_proto (set_addrs k d s) htype in
        if negb (is_l4 htype) then Ok (Some (8 + 32, k, None))
        else ports_tail true data k udpencap 8 htype hdr None
    end.

(** iputils.c:301-302 *)
Definition icmp6_error (t : Z) : bool := (t =? 1) || (t =? 2).

(** iputils.c:298-349: after the extension headers; [frag]: first fragment. *)
Definition ipv6_upper (fuel : nat) (k : key) (udpencap : Z) (data s d : list Z) (htype hdr rc : Z)
           (fragid : option (list Z)) : outcome res :=
  if htype =? 58 then
    do t <- aget data hdr;
    if icmp6_error t then
      if rc =? 1 then Ok None else getInnerHashKeyIpv6 fuel k udpencap hdr data
    else
      let k := set_addrs k s d in
      do k <- (if t =? 128 then do i <- rdn data (hdr + 4) 2; Ok (set_id k i) else Ok k);
      Ok (Some (rc + 16, set_proto k 58, fragid))
  else
    let k := set_proto (set_addrs k s d) htype in
    if negb (is_l4 htype) then Ok (Some (rc + 32, k, fragid))
    else ports_tail false data k udpencap rc htype hdr fragid.

(** iputils.c:253-350.  IP6F_OFF_MASK on a little-endian host is 0xf8ff. *)
Definition getHashKeyIpv6 (fuel : nat) (k : key) (udpencap : Z) (data : list Z) : outcome res :=
  if negb (in_bounds 0 40 (zlen data)) then Ok None
  else
    do nxt <- aget data 6;
    do s <- rdn data 8 16;
    do d <- rdn data 24 16;
    do r <- ext_loop fuel true data nxt 40;
    match r with
    | None => Ok None
    | Some (htype, hdr) =>
        if htype =? 44 then
          do o <- rdn data (hdr + 2) 2;
          do id <- rdn data (hdr + 4) 4;
          if Z.land (nth 0 o 0 + 256 * nth 1 o 0) 63743 =? 0 then
            do r2 <- first_frag_loop fuel data htype hdr;
            let '(htype, hdr) := r2 in
            ipv6_upper fuel k udpencap data s d htype hdr 1 (Some (id_bytes id))
          else Ok (Some (2, set_id (set_addrs k s d) id, None))
        else ipv6_upper fuel k udpencap data s d htype hdr 0 None
    end.

(** iputils.c:352-367; ETH_P_IP = 0x0800, ETH_P_IPV6 = 0x86dd. *)
Definition getHashKey (fuel : nat) (udpencap proto : Z) (data : list Z) : outcome res :=
  if proto =? 2048 then getHashKeyIpv4 key0 udpencap data
  else if proto =? 34525 then getHashKeyIpv6 fuel key0 udpencap data
  else Ok None.

(** hash.c:7-13, 32-bit unsigned. *)
Definition djb2 (l : list Z) : Z := fold_left (fun h c => u32 (u32 (h * 32) + h + c)) l 5381.

(** iputils.c:369-374; ports.proto is a 16-bit little-endian field. *)
Definition hashKey (k : key) (hash_mode : Z) : Z :=
  if (nth 2 (k_id k) 0 + 256 * nth 3 (k_id k) 0 =? 132) && (hash_mode =? 1)
  then djb2 (skipn 4 (k_id k))
  else djb2 (k_src k ++ k_dst k ++ k_id k).

(** iputils.c:375-378. *)
Definition hashKeyAddresses (k : key) : Z := djb2 (k_src k ++ k_dst k).

(** The 40 bytes of struct ctKey (conntrack.h), and the assignment key.id = fragid which
    the callers make for first fragments. *)
Definition key_bytes (k : key) : list Z := k_src k ++ k_dst k ++ k_id k.
Definition with_id (k : key) (id : list Z) : key := mkKey (k_src k) (k_dst k) id.
