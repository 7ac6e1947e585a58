(** C88: the trace of a packet tells what it is and what was done with it. *)
From Coq Require Import String.
From Verif Require Import Base Lists Cstr_Model IpKey_Model IpKey_Spec Maglev_Model Rangeset_Model Rangeset_Spec Match_Spec Flow_Model FlowLb_Model FlowLb4_Proofs Fwmark_Spec Print_Model Print_Spec
  Trace_Model Shown_Model Shown_Spec Shown2_Proofs Shown3_Proofs.
From Verif Require Frag_Model Frag_Spec Frags_Spec Trace_Props Frags_Props.

(** A packet for which a trace flow is found: it is shown with the name of
    the trace flow, its addresses and ports, and a line tells the mark it gets
    and the target whose table the mark was read from.  The exceptions are UDP packets dropped because
    they hold no SCTP although the flow says so. *)
Theorem C88_flow : forall h L P mask w w1 w2 id n c s now done eth data f l4 v s' ev,
  flow_ok f -> l4_packet eth data (fl_proto f) (fl_src f) (fl_dst f) l4 -> ports_at data l4 (fl_sport f) (fl_dport f) ->
  zlen data <= UINT_MAX -> is_mark v -> Z.land mask 64 <> 0 ->
  tstep L P w (TLookup id eth data) = Some (TCont w1 Found) -> tstep L P w1 (TWrite id) = Some (TCont w2 (Wrote n c)) ->
  runp (packet h now done eth data) s = Some (Verdict v, s', ev) ->
  exists pl r, handlerText h P mask w s now done eth data = Ok (([10] ++ line (str "Match for trace-flow: " ++ n)) :: pl :: r) /\
    packet_line (ntop P) (fl_proto f) (zlen data) (fl_src f) (fl_dst f) (port_num (fl_sport f)) (port_num (fl_dport f)) pl /\
    (mark_told s ev r v \/ fl_proto f = 17 /\ v = -1 /\ (In failed r \/ exists u, u <> 0 /\ getHashKey (S (length data)) u eth data = Ok None)).
Proof. exact shown_flow. Qed.
Print Assumptions C88_flow.
(** The same for any packet, first fragments and ICMP included, without an LB tier. *)
Theorem C88_any : forall h L P mask w w1 w2 id n c s now done eth data v s' ev,
  h_tier h = None -> is_mark v -> Z.land mask 64 <> 0 ->
  tstep L P w (TLookup id eth data) = Some (TCont w1 Found) -> tstep L P w1 (TWrite id) = Some (TCont w2 (Wrote n c)) ->
  runp (packet h now done eth data) s = Some (Verdict v, s', ev) ->
  exists l, handlerText h P mask w s now done eth data = Ok l /\
   (mark_told s ev l v \/ v = -1 /\ (In failed l \/ exists u, u <> 0 /\ getHashKey (S (length data)) u eth data = Ok None)).
Proof. exact shown_mark. Qed.
Print Assumptions C88_any.
(** The line that shows a packet can be read in one way only, given that
    inet_ntop writes different addresses differently and no spaces. *)
Theorem C88_line_read : forall N p len src dst sp dp p' len' src' dst' sp' dp' l,
  (forall a, bytes 16 a -> ~ In 32 (N a)) -> (forall a b, bytes 16 a -> bytes 16 b -> N a = N b -> a = b) -> bytes 16 src -> bytes 16 dst -> bytes 16 src' -> bytes 16 dst' ->
  packet_line N p len src dst sp dp l -> packet_line N p' len' src' dst' sp' dp' l -> (p, len, src, dst, sp, dp) = (p', len', src', dst', sp', dp').
Proof. exact line_read. Qed.
Print Assumptions C88_line_read.
(** With the trace of fragments: one line for every fragment other than the
    first, which tells what was done with it. *)
Theorem C88_fragment : forall h P mask w s now done eth data a b id v s' ev, part eth data false a b id -> is_mark v -> Z.land mask 4 <> 0 ->
  runp (packet h now done eth data) s = Some (Verdict v, s', ev) ->
  exists x, handlerText h P mask w s now done eth data = Ok [x] /\ tells_fragment x v.
Proof. exact shown_fragment. Qed.
Print Assumptions C88_fragment.
(** It says "stored" exactly when the fragment is kept, to be handed back when
    the first one comes, and "dropped" exactly when it is refused. *)
Theorem C88_stored : forall h P mask w s now done eth data a b id l ans m, part eth data false a b id -> Z.land mask 4 <> 0 -> h_tier h = None ->
  Frag_Spec.conf_seq (h_frag h) -> Frag_Spec.calls_clock 0 (l ++ [(Frag_Model.CStore now (Frags_Spec.datagram a b id) data, done)]) ->
  Frag_Spec.sessions (h_frag h) (Frag_Model.fragTableCreate (h_frag h)) Frag_Spec.sempty l ans (t_ft s) m ->
  exists ans' m1 an m2, Frag_Spec.sessions (h_frag h) (Frag_Model.fragTableCreate (h_frag h)) Frag_Spec.sempty l ans' (t_ft s) m1 /\
    Frag_Spec.other_step (Frag_Spec.no_bucket (h_frag h) (t_ft s)) (Frag_Spec.no_frag (h_frag h) (t_ft s)) (Frag_Model.g_ttl (h_frag h)) (Frag_Model.g_mtu (h_frag h)) m1 now (Frags_Spec.datagram a b id) data done an m2 /\
    exists x, handlerText h P mask w s now done eth data = Ok [x] /\
      (x = line (str "Fragment stored") <-> exists before, Frag_Spec.storing (Frag_Model.g_ttl (h_frag h)) m1 now (Frags_Spec.datagram a b id) before /\ m2 = Frag_Spec.sput m1 (Frags_Spec.datagram a b id) (Frag_Spec.mkSess (Frag_Spec.SStoring (data :: before)) now) /\ Frag_Spec.an_rc an = 1) /\
      (x = line (str "Fragment dropped") <-> an = Frag_Spec.refused).
Proof. exact shown_stored. Qed.
Print Assumptions C88_stored.
(** With the trace of packets: the mark of a packet that is sent to a target. *)
Theorem C88_packet : forall h P mask w s now done eth data f l4 v s' ev,
  flow_ok f -> l4_packet eth data (fl_proto f) (fl_src f) (fl_dst f) l4 -> ports_at data l4 (fl_sport f) (fl_dport f) ->
  is_mark v -> Z.land mask 64 = 0 -> Z.land mask 2 <> 0 ->
  runp (packet h now done eth data) s = Some (Verdict v, s', ev) ->
  exists l, handlerText h P mask w s now done eth data = Ok l /\
    ((exists x, In x l /\ sent_line v x) \/ v = h_nolb h /\ In (line (str "Failed flowLookup")) l \/ v = h_notargets h \/ fl_proto f = 17 /\ v = -1).
Proof. exact shown_packet. Qed.
Print Assumptions C88_packet.
(** Nothing is traced if no trace is on. *)
Theorem C88_off : forall h P w s now done eth data l, handlerText h P 0 w s now done eth data = Ok l -> l = [].
Proof. exact shown_nothing. Qed.
Print Assumptions C88_off.

(** The trace of sctp shows where an SCTP packet is sent, and no TCP packet. *)
Theorem C88_sctp : forall h P mask w s now done eth data f l4 v s' ev, flow_ok f -> l4_packet eth data (fl_proto f) (fl_src f) (fl_dst f) l4 -> ports_at data l4 (fl_sport f) (fl_dport f) ->
  is_mark v -> Z.land mask 64 = 0 -> Z.land mask 16 <> 0 -> fl_proto f = 132 ->
  runp (packet h now done eth data) s = Some (Verdict v, s', ev) ->
  exists l, handlerText h P mask w s now done eth data = Ok l /\ ((exists x, In x l /\ sent_line v x) \/ v = h_nolb h \/ v = h_notargets h).
Proof. exact shown_sctp. Qed.
Print Assumptions C88_sctp.
Theorem C88_sctp_only : forall h P w s now done eth data f l4 l, flow_ok f -> l4_packet eth data (fl_proto f) (fl_src f) (fl_dst f) l4 -> ports_at data l4 (fl_sport f) (fl_dport f) ->
  fl_proto f = 6 -> handlerText h P 16 w s now done eth data = Ok l -> l = [].
Proof. exact shown_not_sctp. Qed.
Print Assumptions C88_sctp_only.

(** The trace of fragments tells of every fragment written to the tun device, and of none without one. *)
Theorem C88_injected : forall h P mask w s now done eth data v s' ev, h_tier h = None -> Z.land mask 64 = 0 -> Z.land mask 4 <> 0 ->
  runp (packet h now done eth data) s = Some (Verdict v, s', ev) ->
  exists l, handlerText h P mask w s now done eth data = Ok l /\ injections_told (h_tun h) (t_tun s) (t_tun s') l.
Proof. exact shown_injected. Qed.
Print Assumptions C88_injected.

(** Threads: the name shown for a protocol is right for protocols that have
    one, and for others if no other thread asks for such a name meanwhile. *)
Theorem C88_protocol_partial : forall tr s t s' x, pexec tr s -> (forall t p o, In (PName t p, o) tr -> 0 <= p < 256) -> pstep s (PTrace t) = Some (s', Some x) ->
  exists p later, asked_name tr t p later /\ (known p x \/ (forall s, ~ known p s) /\ ((forall t' p' o, In (PName t' p', o) later -> exists s, known p' s) -> is_dec x p)).
Proof. exact names_shown. Qed.
Print Assumptions C88_protocol_partial.
(** Otherwise the packet may be shown with the protocol of another packet. *)
Theorem C88_protocol_refuted : exists tr s s' x, pexec tr s /\ pstep s (PTrace 1) = Some (s', Some x) /\ asked_name tr 1 47 [(PName 2 50, None)] /\ is_dec x 50.
Proof.
  exists [(PName 1 47, None); (PName 2 50, None)]. eexists _, _, _. split.
  - apply (px_step [(PName 1 47, None)] (mkP (dec 47) (pset (fun _ => None) 1 (Some Buffer)))); [|reflexivity]. apply (px_step [] pstart); [constructor|reflexivity].
  - split; [reflexivity|]. split; [split; [exists []; reflexivity|intros (o & [H|[]]); discriminate]|].
    cbn. split; [discriminate|]. split; [repeat constructor; lia|]. split; [reflexivity|cbn; lia].
Qed.
Print Assumptions C88_protocol_refuted.

(** A trace flow for everything, and flowlb with one flow and one target *)
Definition ex_w : tworld := mkTW [Some (str "web")] [mkF (str "web") 0 1 None None None None None None 0] 0 [].
Definition ex_s (f : frec) : state := mkSt [mkLb (str "t1") 1 1 false] [1] [f] (Frag_Model.fragTableCreate (h_frag (ex_h false))) ex_shm ex_mem [].
Definition ex_f : flow := mkFlow (mapped [10;0;0;1]) (mapped [10;0;0;2]) 6 [4;210] [0;80].
Example C88_ex :
  (exists w1 w2 c s' ev, flow_ok ex_f /\ l4_packet 2048 FlowLb4_Proofs.ex_tcp 6 (fl_src ex_f) (fl_dst ex_f) 20 /\ ports_at FlowLb4_Proofs.ex_tcp 20 [4;210] [0;80] /\
    tstep (h_lib (ex_h false)) Trace_Props.ex_TP ex_w (TLookup 7 2048 FlowLb4_Proofs.ex_tcp) = Some (TCont w1 Found) /\ tstep (h_lib (ex_h false)) Trace_Props.ex_TP w1 (TWrite 7) = Some (TCont w2 (Wrote (str "web") c)) /\
    runp (packet (ex_h false) 1 false 2048 FlowLb4_Proofs.ex_tcp) (ex_s p0_flow) = Some (Verdict 101, s', ev) /\
    handlerText (ex_h false) Trace_Props.ex_TP 66 ex_w (ex_s p0_flow) 1 false 2048 FlowLb4_Proofs.ex_tcp =
      Ok ([[10] ++ line (str "Match for trace-flow: web");
           line (str "proto=tcp, len=28, " ++ ntop Trace_Props.ex_TP (fl_src ex_f) ++ str " 1234 -> " ++ ntop Trace_Props.ex_TP (fl_dst ex_f) ++ str " 80");
           line (str "target=t1, fwmark=101"); line (str "Using LB; t1"); line (str "Packet; proto=6, len=28, fwmark=101")])) /\
  (exists s' ev, runp (packet (ex_h false) 1 false 2048 Frags_Props.p2) (ex_s p0_flow) = Some (Verdict (-1), s', ev) /\
    handlerText (ex_h false) Trace_Props.ex_TP 4 ex_w (ex_s p0_flow) 1 false 2048 Frags_Props.p2 = Ok [line (str "Fragment stored")]) /\
  (part 2048 Frags_Props.p2 false (mapped [10;0;0;1]) (mapped [10;0;0;2]) [0;7] /\ Frag_Spec.conf_seq (h_frag (ex_h false)) /\
   Frag_Spec.sessions (h_frag (ex_h false)) (Frag_Model.fragTableCreate (h_frag (ex_h false))) Frag_Spec.sempty [] [] (t_ft (ex_s p0_flow)) Frag_Spec.sempty).
Proof.
  split; [|split].
  - eexists _, _, _, _, _. split; [unfold flow_ok, bytes, ex_f; cbn; repeat split; auto; repeat constructor; lia|]. split.
    { left. split; [reflexivity|]. exists [10;0;0;1], [10;0;0;2]. split; [reflexivity|]. split; [reflexivity|]. unfold ipv4_header, at_. split.
      - split; [reflexivity|]. split; [reflexivity|]. split; [exists 69; cbn; repeat split; lia|]. cbn. repeat split; lia.
      - exists 0, 0. unfold at_. cbn. repeat split; lia. }
    split; [unfold ports_at, at_; cbn; repeat split; lia|]. split; [reflexivity|]. split; [reflexivity|]. split; [vm_compute; reflexivity|]. vm_compute. reflexivity.
  - eexists _, _. split; [vm_compute; reflexivity|]. vm_compute. reflexivity.
  - split; [exact Frags_Props.p2_other|]. split; [|constructor]. repeat split; try (vm_compute; congruence); vm_compute; reflexivity.
Qed.

(** UDP to the port of a flow with --udpencap that holds no SCTP header is
    dropped, and the trace flow shows the packet but not that. *)
Theorem C88_silent_refuted : exists h L P w w1 w2 id n c s now done eth data s' ev l, h_tier h = None /\
  tstep L P w (TLookup id eth data) = Some (TCont w1 Found) /\ tstep L P w1 (TWrite id) = Some (TCont w2 (Wrote n c)) /\
  runp (packet h now done eth data) s = Some (Verdict (-1), s', ev) /\ handlerText h P 64 w s now done eth data = Ok l /\
  forall x, In x l -> x <> failed /\ forall t v, ~ tells x t v.
Proof.
  exists (ex_h false), (h_lib (ex_h false)), Trace_Props.ex_TP, ex_w. eexists _, _. exists 7. eexists _, _. exists (ex_s (mkF (str "#a") 0 0 (Some [17]) None None None None None 9899)), 1, false, 2048, (ex_ip 17 [4;210; 38;171; 0;0;0;0]).
  eexists _, _, _. split; [reflexivity|]. split; [reflexivity|]. split; [reflexivity|]. split; [vm_compute; reflexivity|]. split; [vm_compute; reflexivity|].
  intros x [<-|[<-|[<-|[]]]]; (split; [discriminate|]; intros t v T; inversion T).
Qed.
Print Assumptions C88_silent_refuted.

(** An SCTP packet; a fragment that comes before the first of its packet, with and without a tun device *)
Definition ex_sctp : flow := mkFlow (mapped [10;0;0;1]) (mapped [10;0;0;2]) 132 [4;210] [0;80].
Example C88_ex_sctp : let d := ex_ip 132 [4;210; 0;80; 0;0;0;0; 0;0;0;0] in
  flow_ok ex_sctp /\ l4_packet 2048 d 132 (fl_src ex_sctp) (fl_dst ex_sctp) 20 /\ ports_at d 20 [4;210] [0;80] /\
  (exists s' ev, runp (packet (ex_h false) 1 false 2048 d) (ex_s p0_flow) = Some (Verdict 101, s', ev)) /\
  handlerText (ex_h false) Trace_Props.ex_TP 16 ex_w (ex_s p0_flow) 1 false 2048 d = Ok [line (str "Using LB; t1"); line (str "Packet; proto=132, len=32, fwmark=101")] /\
  handlerText (ex_h false) Trace_Props.ex_TP 16 ex_w (ex_s p0_flow) 1 false 2048 FlowLb4_Proofs.ex_tcp = Ok [].
Proof.
  cbv zeta. split; [unfold flow_ok, bytes, ex_sctp; cbn; repeat split; auto; repeat constructor; lia|]. split.
  { left. split; [reflexivity|]. exists [10;0;0;1], [10;0;0;2]. split; [reflexivity|]. split; [reflexivity|]. unfold ipv4_header, at_. split.
    - split; [reflexivity|]. split; [reflexivity|]. split; [exists 69; cbn; repeat split; lia|]. cbn. repeat split; lia.
    - exists 0, 0. unfold at_. cbn. repeat split; lia. }
  split; [unfold ports_at, at_; cbn; repeat split; lia|]. split; [eexists _, _; vm_compute; reflexivity|]. split; vm_compute; reflexivity.
Qed.
Definition ex_th (tun : bool) : hconf := mkH false 4 0 0 None (Frag_Model.mkConf 2 2 2 1500 1000) tun false (h_lib (ex_h false)).
Definition ex_ts : state := mkSt [mkLb (str "t1") 1 1 false] [1] [p0_flow] (Frag_Model.fragTableCreate (h_frag (ex_th true))) ex_shm ex_mem [].
Example C88_ex_injected : forall tun, exists s1 e1 v s2 e2 l,
  runp (packet (ex_th tun) 1 false 2048 Frags_Props.p2) ex_ts = Some (Verdict (-1), s1, e1) /\
  runp (packet (ex_th tun) 1 false 2048 Frags_Props.p1) s1 = Some (Verdict v, s2, e2) /\
  handlerText (ex_th tun) Trace_Props.ex_TP 4 ex_w s1 1 false 2048 Frags_Props.p1 = Ok l /\
  t_tun s2 = (if tun then [Frags_Props.p2] else []) /\ In (if tun then injected (str "28") else line (str "Frag dropped, len=28")) l.
Proof. intros [|]; eexists _, _, _, _, _, _; (split; [vm_compute; reflexivity|]); (split; [vm_compute; reflexivity|]); (split; [vm_compute; reflexivity|]); (split; [vm_compute; reflexivity|]); vm_compute; auto. Qed.
