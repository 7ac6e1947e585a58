(** Fragments on the host (C79): what should happen to all packets, also those that are
    fragments and stay on the host. *)
From Coq Require Import String.
From Verif Require Import Base Cstr_Model IpKey_Model IpKey_Spec Maglev_Model Match_Spec Flow_Model Flow_Spec Remote_Model FlowLb_Model Lb_Spec Fwmark_Spec
  Start_Model Start_Spec Client_Spec Lines_Model Lines_Spec Host_Model Host_Spec.
From Verif Require Import Frag_Spec.

(** ** What is there *)
(** What a load-balancer knows of datagrams: how long (nanoseconds), the largest fragment it stores,
    and the sessions (Frag_Spec.v) *)
Record memory := mkMem { y_ttl : Z; y_mtu : Z; y_map : smap }.
Record city := mkCity { y_site : site; y_mem : Z -> memory }.
Definition empty_city : city := mkCity nothing (fun _ => mkMem 0 0 sempty).

(** ** Packets *)
(** The datagram: addresses and identification, padded to 8 bytes *)
Definition datagram (a b id : list Z) : list Z := a ++ b ++ id ++ repeat 0 (8 - length id).
(** The first fragment of a datagram from a to b, that belongs to flow f and has its ports at
    [l4].  Of IPv6 the ports are not read: bytes of the fragment header are taken
    instead (C59_ipv6_first_fragment_refuted). *)
Definition first_frag (enc eth : Z) (data : list Z) (f : flow) (l4 : Z) (id : list Z) : Prop :=
  flow_ok f /\ part eth data true (fl_src f) (fl_dst f) id /\
  (eth = ETH_IP /\ (exists s4 d4, fl_src f = IpKey_Spec.mapped s4 /\ fl_dst f = IpKey_Spec.mapped d4 /\ ipv4_header data 0 l4 (fl_proto f) s4 d4) /\
     ports_at data l4 (fl_sport f) (fl_dport f) /\ (fl_proto f = 17 -> enc <> 0 -> port_num (fl_dport f) <> enc) \/
   eth = ETH_IPV6 /\ enc = 0 /\ ipv6_fragment data true (fl_src f) (fl_dst f) id (fl_proto f) /\ fl_sport f = [fl_proto f; 0] /\ at_ data 42 (fl_dport f)).

(** The LB tier, if there is one, leaves a fragment from a to b to this load-balancer. *)
Definition left_here (g : site) (k : Z) (a b : list Z) : Prop :=
  match g_tier g k with
  | None => True
  | Some (r, own) => exists s x, has_table (g_tab g) r s /\ target s (djb2 (a ++ b)) x /\ (x < 0 \/ x = own)
  end.

(** Byte matches (--match) can be evaluated for a first fragment: IPv4, with more than the transport header *)
Definition matchable (F : flows) (R : chars -> rule) (eth : Z) (data : list Z) (f : flow) (l4 : Z) : Prop :=
  forall n c r, F n = Some (c, r) -> r_match (R n) <> None -> eth = ETH_IP /\ complete_plus data (fl_proto f) l4.

(** The table that process k has for a first fragment of flow f (None: no flow is for it),
    the hash mode, and the mark for no target.  With flows it is the table of one of those
    of the highest priority. *)
Inductive chosen (g : site) (k eth : Z) (data : list Z) (f : flow) (l4 : Z) : option reader -> Z -> Z -> Prop :=
| ch_lb m no en r : g_srv g k = Some (SLb m no en r) -> chosen g k eth data f l4 (Some r) m no
| ch_flow m no b L F R n c r : g_srv g k = Some (SFlow m no b L F) -> rules L F R -> (fl_proto f = 17 -> port_num (fl_dport f) <> 0) ->
    matchable F R eth data f l4 -> ~ in_udp F R f -> for_packet F R f data l4 n c r ->
    (forall n' c' r', for_packet F R f data l4 n' c' r' -> c_priority c' <= c_priority c) ->
    chosen g k eth data f l4 (Some r) m no
| ch_none m no b L F R : g_srv g k = Some (SFlow m no b L F) -> rules L F R -> (fl_proto f = 17 -> port_num (fl_dport f) <> 0) ->
    matchable F R eth data f l4 -> ~ in_udp F R f -> (forall n c r, ~ for_packet F R f data l4 n c r) ->
    chosen g k eth data f l4 None m b.

(** ** What happens *)
(** A load-balancer that starts knows no datagrams. *)
Definition began (w : uevent) (y : Z -> memory) : Z -> memory :=
  match w with
  | ULb k _ w _ _ | UFlowLb k _ w _ => at_k y k (mkMem (w_ttl w * 1000000) (w_mtu w) sempty)
  | _ => y
  end.
Definition learned (y : Z -> memory) (k : Z) (m : smap) : Z -> memory := at_k y k (mkMem (y_ttl (y k)) (y_mtu (y k)) m).

(** An event, the time, and whether the reassembler, if there is one, has seen all of the
    datagram.  A fragment may be refused for lack of memory. *)
Notation moment := (uevent * Z * bool)%type.
Inductive may : city -> moment -> city -> oobs -> Prop :=
| y_event g y w t d g' ob : occurs g w g' ob -> may (mkCity g y) (w, t, d) (mkCity g' (began w y)) ob
(** A packet of flowlb goes to the target of one of the flows of the highest priority that are
    for it. *)
| y_one g y k eth data t d m no b L F R f l4 n c r s v : g_srv g k = Some (SFlow m no b L F) -> rules L F R ->
    carries F R eth data f l4 -> for_packet F R f data l4 n c r ->
    (forall n' c' r', for_packet F R f data l4 n' c' r' -> c_priority c' <= c_priority c) ->
    has_table (g_tab g) r s -> marks no s (flow_hash m f) v ->
    may (mkCity g y) (UPacket k eth data, t, d) (mkCity g y) (Marked v)
(** A first fragment goes to the target of its flow, and the datagram with it; not if the datagram was sent
    somewhere already. *)
| y_first g y k eth data t d v f l4 id r m no s x an sm : g_srv g k = Some v -> first_frag (encap_of v) eth data f l4 id ->
    left_here g k (fl_src f) (fl_dst f) -> chosen g k eth data f l4 (Some r) m no ->
    has_table (g_tab g) r s -> target s (flow_hash m f) x -> 0 <= x ->
    first_step True (y_ttl (y k)) (y_map (y k)) t (datagram (fl_src f) (fl_dst f) id) x true an sm ->
    may (mkCity g y) (UPacket k eth data, t, d) (mkCity g (learned y k sm)) (Marked (if an_rc an =? 0 then x else -1))
| y_first_no g y k eth data t d v f l4 id r m no s x : g_srv g k = Some v -> first_frag (encap_of v) eth data f l4 id ->
    left_here g k (fl_src f) (fl_dst f) -> chosen g k eth data f l4 (Some r) m no ->
    has_table (g_tab g) r s -> target s (flow_hash m f) x -> x < 0 ->
    may (mkCity g y) (UPacket k eth data, t, d) (mkCity g y) (Marked no)
| y_first_none g y k eth data t d v f l4 id m b : g_srv g k = Some v -> first_frag (encap_of v) eth data f l4 id ->
    left_here g k (fl_src f) (fl_dst f) -> chosen g k eth data f l4 None m b ->
    may (mkCity g y) (UPacket k eth data, t, d) (mkCity g y) (Marked b)
(** Another fragment goes where its datagram was sent to, else it is stored or dropped. *)
| y_other g y k eth data t d v a b id an sm : g_srv g k = Some v -> part eth data false a b id -> left_here g k a b ->
    other_step True True (y_ttl (y k)) (y_mtu (y k)) (y_map (y k)) t (datagram a b id) data d an sm ->
    may (mkCity g y) (UPacket k eth data, t, d) (mkCity g (learned y k sm)) (Marked (match an_val an with Some v => v | None => -1 end)).
Inductive mays : city -> list moment -> city -> list oobs -> Prop :=
| ys_nil c : mays c [] c []
| ys_cons c v c1 o vs c2 os : may c v c1 o -> mays c1 vs c2 os -> mays c (v :: vs) c2 (o :: os).

(** ** What makes sense *)
(** Starts with a fragment table, and --ft_ttl at most 4294 milliseconds (see C23) *)
Definition fit (w : uevent) : Prop :=
  match w with ULb _ _ w _ _ | UFlowLb _ _ w _ => 0 < w_size w /\ w_ttl w <= 4294 | _ => True end.
(** A fragment of a load-balancer whose tables were not made anew under its feet *)
Definition whole_tier (g : site) (k : Z) : Prop := forall r own, g_tier g k = Some (r, own) -> held_by r.
Definition decided (g : site) (k eth : Z) (data : list Z) (f : flow) (l4 : Z) : Prop :=
  match g_srv g k with
  | None => False
  | Some (SLb m no en r) => held_by r
  | Some (SFlow m no b L F) => exists R, rules L F R /\ (fl_proto f = 17 -> port_num (fl_dport f) <> 0) /\ matchable F R eth data f l4 /\ ~ in_udp F R f /\
      forall n c r, for_packet F R f data l4 n c r -> held_by r
  end.
(** A packet for flowlb, also for several flows with different tables *)
Definition for_flows (g : site) (k eth : Z) (data : list Z) : Prop :=
  exists m no b L F R f l4, g_srv g k = Some (SFlow m no b L F) /\ rules L F R /\ carries F R eth data f l4 /\
    forall n c r, for_packet F R f data l4 n c r -> held_by r.
Definition proper (g : site) (w : uevent) : Prop :=
  fit w /\
  (sensible_event g w \/
   (exists k eth data, w = UPacket k eth data /\ for_flows g k eth data) \/
   exists k eth data v, w = UPacket k eth data /\ g_srv g k = Some v /\ whole_tier g k /\
     ((exists f l4 id, first_frag (encap_of v) eth data f l4 id /\ decided g k eth data f l4) \/ exists a b id, part eth data false a b id)).

(** The time of the packets; the clock of the host does not run backwards. *)
Definition meant_at (v : oevent) (m : moment) : Prop :=
  let '(w, t, d) := m in meant v w /\ match v with OPacket _ nw done _ _ => t = nw /\ d = done | _ => True end.
Fixpoint host_clock (t0 : Z) (vs : list oevent) : Prop :=
  match vs with
  | [] => True
  | OPacket _ nw _ _ _ :: vs => t0 <= nw < two64 /\ host_clock nw vs
  | _ :: vs => host_clock t0 vs
  end.
