(** What the user of a host should see (C79): lines on tables, load-balancers started
    from their lines, flows set and deleted, packets marked. *)
From Coq Require Import String.
From Verif Require Import Base Cstr_Model IpKey_Model IpKey_Spec Maglev_Model Match_Spec Rangeset_Spec Flow_Model Flow_Spec Remote_Model FlowLb_Model FlowLb_Spec Lb_Spec Fwmark_Spec Steer_Spec
  Start_Model Start_Spec Client_Model Client_Spec Opt_Model Opt_Spec Lines_Model Lines_Spec Host_Model.

(** ** What is there *)
(** A flow: what was asked for, and the table it got *)
Definition flows := chars -> option (flowcmd * reader).
(** lb with its hash mode, the mark for no targets, the udp port, and its table;
    flowlb with its hash mode, the marks for no targets and no flow, and its flows *)
Inductive server := SLb (mode none encap : Z) (t : reader) | SFlow (mode none nolb : Z) (L : libc) (F : flows).
(** The host: tables, load-balancers, and the table and own mark of the LB tier that a
    load-balancer was started with *)
Record site := mkSite { g_tab : chars -> option made; g_srv : Z -> option server; g_tier : Z -> option (reader * Z) }.
Definition nothing : site := mkSite (fun _ => None) (fun _ => None) (fun _ => None).

(** ** What is asked for *)
(** A start of lb: process, devices, the options, --sctp_encap, the object of --tshm *)
Inductive uevent :=
| UTable (e : ienv) (r : request)
| ULb (k : Z) (D : devs) (w : wanted) (encap : Z) (x : chars)
| UFlowLb (k : Z) (D : devs) (w : wanted) (nolb : Z)
| USet (k : Z) (c : flowcmd)
| UDelete (k : Z) (n : chars)
| UPacket (k eth : Z) (data : list Z)
| UKill (k : Z).

(** The devices allow the options. *)
Definition allowed (D : devs) (w : wanted) : Prop := sensible w /\ usable (mkEnv (fun _ => None) (dv_tun D) (dv_mtu D) (dv_lib D)) w.
(** The checks of flow-set: a target of at most 255 characters, other values of at
    most 1000, no ports without protocols, no --udpencap without sctp *)
Definition set_checked (its : list item) : Prop :=
  (forall v, value_of flowSetOpts its "target" (Some v) -> zlen v <= 255) /\
  (forall n v, In n ["protocols"; "dsts"; "srcs"; "dports"; "sports"; "match"]%string ->
     value_of flowSetOpts its n (Some v) -> zlen v <= 1000) /\
  (forall n v, In n ["dports"; "sports"]%string -> value_of flowSetOpts its n (Some v) ->
     exists p, value_of flowSetOpts its "protocols" (Some p)) /\
  (forall v, value_of flowSetOpts its "udpencap" (Some v) ->
     exists p s e, value_of flowSetOpts its "protocols" (Some (p ++ s ++ e)) /\ any_case s (str "sctp")).

(** The program's events for what is asked *)
Inductive meant : oevent -> uevent -> Prop :=
| m_table e ws r : asks ws r -> meant (OTable e ws) (UTable e r)
| m_lb k D its tail w en tn x : Forall (item_ok lbOpts) its -> says lbOpts its w -> number lbOpts its "sctp_encap" en ->
    value_of lbOpts its "tshm" (Some tn) -> object tn x -> allowed D w -> 0 <= en < 65536 ->
    meant (OStart k D (str "lb" :: line its tail)) (ULb k D w en x)
| m_flowlb k D its tail w nolb ping : Forall (item_ok flowlbOpts) its -> says flowlbOpts its w -> number flowlbOpts its "nolb_fwmark" nolb ->
    value_of flowlbOpts its "promiscuous_ping" ping -> allowed D w -> libc_ok (dv_lib D) ->
    meant (OStart k D (str "flowlb" :: line its tail)) (UFlowLb k D w nolb)
| m_set k its tail junk c : Forall (item_ok flowSetOpts) its -> (forall i, ~ missing flowSetOpts its i) -> carried FlowSet its tail -> set_checked its ->
    told FlowSet its c ->
    meant (OFlow k (str "flow-set" :: line its tail) junk) (USet k c)
| m_delete k its tail junk n : Forall (item_ok nameOpts) its -> value_of nameOpts its "name" (Some n) -> carried FlowDelete its tail ->
    meant (OFlow k (str "flow-delete" :: line its tail) junk) (UDelete k n)
| m_packet k nw done eth data : meant (OPacket k nw done eth data) (UPacket k eth data)
| m_kill k : meant (OKill k) (UKill k).

(** ** What should happen *)
(** The effect of a line on the tables and on those who have one *)
Definition changes (tab : chars -> option made) (e : ienv) (r : request) (tab' : chars -> option made) (f : reader -> reader) (st : Z) (out : chars) : Prop :=
  forall rd, happens (mkW tab rd) (VLine e r) (mkW tab' (fun k => f (rd k))) (OLine st out).
Definition changed (f : reader -> reader) (v : server) : server :=
  match v with
  | SLb m n e t => SLb m n e (f t)
  | SFlow m n b L F => SFlow m n b L (fun x => match F x with Some (c, t) => Some (c, f t) | None => None end)
  end.

Definition changed_tier (f : reader -> reader) (v : option (reader * Z)) : option (reader * Z) :=
  match v with Some (r, own) => Some (f r, own) | None => None end.

(** The LB tier asked for: its table, and the mark the table has as own. *)
Definition tier_is (tab : chars -> option made) (w : wanted) (ti : option (reader * Z)) : Prop :=
  match w_tier w with None => ti = None | Some n => exists x t, object n x /\ tab x = Some t /\ ti = Some (Live x, d_own t) end.
Definition tier_gone (tab : chars -> option made) (w : wanted) : Prop :=
  match w_tier w with None => False | Some n => exists x, object n x /\ tab x = None end.

(** A flow whose target has the text t has the table r. *)
Definition shared (F : flows) (t : chars) (r : reader) : Prop := exists n c, F n = Some (c, r) /\ c_target c = Some t.
(** The table a reader has *)
Definition has_table (tab : chars -> option made) (r : reader) (s : mag) : Prop :=
  exists t, table_of t s /\ (r = Kept t \/ exists x, r = Live x /\ tab x = Some t).
(** The mark for a hash: that of the target, or the one for no targets *)
Definition marks (none : Z) (s : mag) (hash v : Z) : Prop := exists x, target s hash x /\ v = if x <? 0 then none else x.

(** A request that can be taken: its texts mean something, its name is not too long
    and does not begin with #, its priority is not negative (see C37), and --udpencap is
    for sctp alone. *)
Definition good_request (L : libc) (c : flowcmd) (n t : chars) : Prop :=
  c_name c = Some n /\ c_target c = Some t /\ (exists r, means L (cmdArgs c n 0) r) /\
  own_name n /\ zlen n <= 1000 /\ 0 <= c_priority c <= 2147483647 /\
  (c_udpencap c <> 0 -> exists p, c_protocols c = Some [p] /\ any_case p (str "sctp")).
Definition same_udp (F : flows) (n : chars) (c : flowcmd) : Prop := forall c' r', F n = Some (c', r') -> c_udpencap c' = c_udpencap c.
(** The name is not that of the companion of a flow with --udpencap. *)
Definition not_companion (F : flows) (n : chars) : Prop := forall m c r, F m = Some (c, r) -> c_udpencap c <> 0 -> n <> 35 :: m.

(** The packet is of flow [f], whose ports are at [l4]. *)
Definition packet_of (eth : Z) (data : list Z) (f : flow) (l4 : Z) : Prop :=
  flow_ok f /\ l4_packet eth data (fl_proto f) (fl_src f) (fl_dst f) l4 /\ ports_at data l4 (fl_sport f) (fl_dport f).
Definition rules (L : libc) (F : flows) (R : chars -> rule) : Prop := forall n c r, F n = Some (c, r) -> means L (cmdArgs c n 0) (R n).
(** Flow n is for the packet. *)
Definition for_packet (F : flows) (R : chars -> rule) (f : flow) (data : list Z) (l4 : Z) (n : chars) (c : flowcmd) (r : reader) : Prop :=
  F n = Some (c, r) /\ accepts_packet (R n) f data l4.

(** UDP packets of f are taken for SCTP in UDP: they have the port and the addresses of a
    flow with --udpencap. *)
Definition in_udp (F : flows) (R : chars -> rule) (f : flow) : Prop :=
  exists n c r, F n = Some (c, r) /\ c_udpencap c <> 0 /\ fl_proto f = 17 /\ port_num (fl_dport f) = c_udpencap c /\ accepts_addr (R n) (fl_src f) (fl_dst f).
(** The packet carries a packet of flow f, with the ports at l4: it is one; or it is a UDP
    packet with an SCTP packet in it, and no flow is for the UDP packet (see C42). *)
Inductive carries (F : flows) (R : chars -> rule) (eth : Z) (data : list Z) : flow -> Z -> Prop :=
| ca_plain f l4 : packet_of eth data f l4 -> (fl_proto f = 17 -> port_num (fl_dport f) <> 0) ->
    (forall n c r, F n = Some (c, r) -> r_match (R n) <> None -> complete_plus data (fl_proto f) l4) ->
    ~ in_udp F R f -> carries F R eth data f l4
| ca_udp f l4 sp dp : flow_ok f -> fl_proto f = 132 -> ports_at data (l4 + 8) (fl_sport f) (fl_dport f) ->
    packet_of eth data (mkFlow (fl_src f) (fl_dst f) 17 sp dp) l4 -> in_udp F R (mkFlow (fl_src f) (fl_dst f) 17 sp dp) ->
    (forall n c r, F n = Some (c, r) -> r_match (R n) <> None -> l4 + 8 + 12 < zlen data) ->
    (forall n c r, ~ for_packet F R (mkFlow (fl_src f) (fl_dst f) 17 sp dp) data l4 n c r) ->
    carries F R eth data f (l4 + 8).

(** The packet is a fragment from a to b.  The first one of a datagram has to be such that its ports
    can be read. *)
Definition fragment_of (enc eth : Z) (data a b : list Z) : Prop :=
  exists first id, part eth data first a b id /\ (first = true -> fragment enc eth data).
Definition encap_of (v : server) : Z := match v with SLb _ _ en _ => en | SFlow _ _ _ _ _ => 0 end.

Definition at_k {A} (p : Z -> A) (k : Z) (a : A) : Z -> A := fun i => if i =? k then a else p i.
Definition ok_text : chars := str "OK" ++ [10].
Definition with_flows (m n b : Z) (L : libc) (F : flows) : option server := Some (SFlow m n b L F).

Inductive occurs : site -> uevent -> site -> oobs -> Prop :=
| c_table g e r tab' f st out : changes (g_tab g) e r tab' f st out ->
    occurs g (UTable e r) (mkSite tab' (fun k => match g_srv g k with Some v => Some (changed f v) | None => None end) (fun k => changed_tier f (g_tier g k))) (Ended st out)
| c_lb g k D w en x t ti : g_tab g x = Some t -> tier_is (g_tab g) w ti ->
    occurs g (ULb k D w en x) (mkSite (g_tab g) (at_k (g_srv g) k (Some (SLb (w_mode w) (w_notargets w) en (Live x)))) (at_k (g_tier g) k ti)) (Started true)
| c_lb_no g k D w en x : g_tab g x = None \/ tier_gone (g_tab g) w ->
    occurs g (ULb k D w en x) (mkSite (g_tab g) (at_k (g_srv g) k None) (at_k (g_tier g) k None)) (Started false)
| c_flowlb g k D w nolb ti : tier_is (g_tab g) w ti ->
    occurs g (UFlowLb k D w nolb) (mkSite (g_tab g) (at_k (g_srv g) k (with_flows (w_mode w) (w_notargets w) nolb (dv_lib D) (fun _ => None))) (at_k (g_tier g) k ti)) (Started true)
| c_flowlb_no g k D w nolb : tier_gone (g_tab g) w ->
    occurs g (UFlowLb k D w nolb) (mkSite (g_tab g) (at_k (g_srv g) k None) (at_k (g_tier g) k None)) (Started false)
(** A flow is set: it gets the table that other flows with the same target text have,
    else the one that is there now. *)
| c_set g k c m no b L F n t r : g_srv g k = Some (SFlow m no b L F) -> good_request L c n t -> same_udp F n c ->
    shared F t r \/ (forall r', ~ shared F t r') /\ (exists x d, object t x /\ g_tab g x = Some d /\ r = Live x) ->
    occurs g (USet k c) (mkSite (g_tab g) (at_k (g_srv g) k (with_flows m no b L (at_name F n (Some (c, r))))) (g_tier g)) (Ended 0 ok_text)
(** There is no such table. *)
| c_set_no g k c m no b L F n t : g_srv g k = Some (SFlow m no b L F) -> good_request L c n t -> same_udp F n c ->
    (forall r', ~ shared F t r') -> (forall x, object t x -> g_tab g x = None) ->
    occurs g (USet k c) g
      (Ended (-1) (str (match F n with None => "FAIL: Couldn't create load-balancer" | Some _ => "FAIL: Couldn't create new load-balancer" end) ++ [10]))
(** The udp port of a flow is not changed. *)
| c_set_udp g k c m no b L F n t c' r' : g_srv g k = Some (SFlow m no b L F) -> good_request L c n t -> F n = Some (c', r') -> c_udpencap c' <> c_udpencap c ->
    occurs g (USet k c) g (Ended (-1) (str "FAIL: Alter udpencap not allowed" ++ [10]))
| c_delete g k n m no b L F : g_srv g k = Some (SFlow m no b L F) -> not_companion F n ->
    occurs g (UDelete k n) (mkSite (g_tab g) (at_k (g_srv g) k (with_flows m no b L (at_name F n None))) (g_tier g)) (Ended 0 ok_text)
(** There is no flowlb. *)
| c_set_none g k c : (forall m no b L F, g_srv g k <> Some (SFlow m no b L F)) -> occurs g (USet k c) g NoServer
| c_delete_none g k n : (forall m no b L F, g_srv g k <> Some (SFlow m no b L F)) -> occurs g (UDelete k n) g NoServer
(** A packet of lb, plain or in udp *)
| c_packet_lb g k eth data m no en r f s v : g_srv g k = Some (SLb m no en r) -> flow_ok f ->
    flow_packet eth data f /\ (fl_proto f = 17 -> en <> 0 -> port_num (fl_dport f) <> en) \/ en <> 0 /\ encap_packet eth data en f ->
    has_table (g_tab g) r s -> marks no s (flow_hash m f) v ->
    occurs g (UPacket k eth data) g (Marked v)
(** A packet of flowlb that flows are for: those of the highest priority have the same
    table. *)
| c_packet_flow g k eth data m no b L F R f l4 n c r s v : g_srv g k = Some (SFlow m no b L F) -> rules L F R ->
    carries F R eth data f l4 ->
    for_packet F R f data l4 n c r ->
    (forall n' c' r', for_packet F R f data l4 n' c' r' -> (exists s', has_table (g_tab g) r' s') /\ (c_priority c <= c_priority c' -> r' = r)) ->
    has_table (g_tab g) r s -> marks no s (flow_hash m f) v ->
    occurs g (UPacket k eth data) g (Marked v)
| c_packet_other g k eth data m no b L F R f l4 : g_srv g k = Some (SFlow m no b L F) -> rules L F R ->
    carries F R eth data f l4 ->
    (forall n c r, ~ for_packet F R f data l4 n c r) ->
    occurs g (UPacket k eth data) g (Marked b)
(** A fragment that the LB tier gives to another load-balancer *)
| c_packet_tier g k eth data v r own a b s x : g_srv g k = Some v -> g_tier g k = Some (r, own) -> fragment_of (encap_of v) eth data a b ->
    has_table (g_tab g) r s -> target s (djb2 (a ++ b)) x -> 0 <= x -> x <> own ->
    occurs g (UPacket k eth data) g (Marked x)
| c_packet_none g k eth data : g_srv g k = None -> occurs g (UPacket k eth data) g NoServer
| c_kill g k : occurs g (UKill k) (mkSite (g_tab g) (at_k (g_srv g) k None) (at_k (g_tier g) k None)) (Ended 0 []).
Inductive occur : site -> list uevent -> site -> list oobs -> Prop :=
| cs_nil g : occur g [] g []
| cs_cons g v g1 o vs g2 os : occurs g v g1 o -> occur g1 vs g2 os -> occur g (v :: vs) g2 (o :: os).

(** What is asked makes sense: tables are not too large (C76), names are names of
    objects, requests can be taken, packets are of flows or are fragments for another load-balancer of
    the tier; a packet is for no two flows
    of highest priority with different tables, and for none whose table was made anew
    under the feet of the load-balancer. *)
Definition held_by (r : reader) : Prop := (exists x, r = Live x) \/ exists t, r = Kept t.
Definition nameable (n : option chars) : Prop := match n with None => True | Some n => exists x, object n x end.
Definition sensible_event (g : site) (w : uevent) : Prop :=
  match w with
  | UTable e r => sound (mkW (g_tab g) (fun _ => Nobody)) (VLine e r)
  | ULb k D w en x => nameable (w_tier w)
  | UFlowLb k D w nolb => nameable (w_tier w)
  | USet k c => forall m no b L F, g_srv g k = Some (SFlow m no b L F) -> exists n t x, good_request L c n t /\ object t x
  | UPacket k eth data =>
      (exists v r own a b, g_srv g k = Some v /\ g_tier g k = Some (r, own) /\ fragment_of (encap_of v) eth data a b /\ held_by r /\
         forall s x, has_table (g_tab g) r s -> target s (djb2 (a ++ b)) x -> 0 <= x /\ x <> own) \/
      match g_srv g k with
      | None => True
      | Some (SLb m no en r) => held_by r /\ exists f, flow_ok f /\
          (flow_packet eth data f /\ (fl_proto f = 17 -> en <> 0 -> port_num (fl_dport f) <> en) \/ en <> 0 /\ encap_packet eth data en f)
      | Some (SFlow m no b L F) => exists R f l4, rules L F R /\ carries F R eth data f l4 /\
          (forall n c r, for_packet F R f data l4 n c r -> held_by r) /\
          forall n c r n' c' r', for_packet F R f data l4 n c r -> for_packet F R f data l4 n' c' r' -> c_priority c = c_priority c' ->
            (forall n2 c2 r2, for_packet F R f data l4 n2 c2 r2 -> c_priority c2 <= c_priority c) -> r = r'
      end
  | UDelete k n => forall m no b L F, g_srv g k = Some (SFlow m no b L F) -> not_companion F n
  | UKill _ => True
  end.

(** ** Fragments *)
(** The packets that came to process k, and their marks *)
Fixpoint came (k : Z) (vs : list oevent) (os : list oobs) : list (arrival * Z) :=
  match vs, os with
  | v :: vs, ob :: os =>
      match v, ob with
      | OPacket j now done eth data, Marked m => if j =? k then (now, done, eth, data, m) :: came k vs os else came k vs os
      | _, _ => came k vs os
      end
  | _, _ => []
  end.
(** Process k is not ended nor started again; no line on tables *)
Definition stays (k : Z) (v : oevent) : Prop := match v with OStart j _ _ | OKill j => j <> k | _ => True end.
Definition no_line (v : oevent) : Prop := match v with OTable _ _ => False | _ => True end.
(** Process k was started: the udp port, the options, and the marks that are not targets *)
Inductive steers : uevent -> Z -> Z -> wanted -> list Z -> Prop :=
| s_lb k D w en x : steers (ULb k D w en x) k en w [-1; w_notargets w; -1]
| s_flowlb k D w nolb : steers (UFlowLb k D w nolb) k 0 w [-1; w_notargets w; nolb].
