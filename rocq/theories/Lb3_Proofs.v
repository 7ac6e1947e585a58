(** The exact decisions of lb and flowlb (C48). *)
From Coq Require Import String.
From Verif Require Import Base Lists Cstr_Model IpKey_Model IpKey_Spec IpKey_Proofs Maglev_Model Match_Spec Flow_Model Flow_Spec Flow_Proofs Flow2_Proofs Flow3_Proofs
  Remote_Model FlowLb_Model FlowLb_Spec FlowLb4_Proofs Lb_Model Lb_Spec Lb_Proofs Lb2_Proofs.
From Verif Require Frag_Model FlowLb_Proofs FlowLb5_Proofs.

Lemma flow_key_hash f mode : flow_ok f -> hashKey (mk_flow_key f) mode = flow_hash mode f.
Proof.
  intros (_ & _ & _ & (LS & _) & (LD & _)). unfold hashKey, flow_hash, mk_flow_key, flow_key. cbn [k_src k_dst k_id app nth skipn].
  replace (fl_proto f + 256 * 0) with (fl_proto f) by lia. reflexivity.
Qed.

(** A read of a table that does not change *)
Lemma vok_read_exact P reg hash k t :
  (forall s r, p_state P s -> reg s = Some r -> t_mem s r = t) ->
  (forall i, znth (mlookup t) (hash mod mM t) = Some i -> i < 0 -> vok P (k i)) ->
  (forall i fw, znth (mlookup t) (hash mod mM t) = Some i -> 0 <= i -> znth (mactive t) i = Some fw -> vok P (k fw)) ->
  vok P (readTable reg hash k).
Proof.
  intros HT HN HP. apply vok_act. intros s W F. destruct (reg s) as [r|] eqn:ER; [|exact I]. rewrite (HT s r W ER).
  destruct (mM t =? 0); [exact I|]. unfold aget at 1. destruct (znth (mlookup t) _) as [i|] eqn:EI; [|exact I].
  destruct (Z.ltb_spec i 0) as [N|N]; (split; [exact F|]); [auto|]. apply vok_act. clear s W F r ER. intros s W F.
  destruct (reg s) as [r|] eqn:ER; [|exact I]. rewrite (HT s r W ER). unfold aget. destruct (znth (mactive t) i) as [fw|] eqn:EF; [|exact I].
  split; [exact F|]. eauto.
Qed.
(** The verdict for a mark that was read *)
Lemma mark_some t hash i fw none : znth (mlookup t) (hash mod mM t) = Some i -> 0 <= i -> znth (mactive t) i = Some fw ->
  mark_or none (table_mark t hash) = if fw <? 0 then none else fw.
Proof. intros E N A. unfold table_mark. rewrite E. destruct (Z.ltb_spec i 0); [lia|]. rewrite A. destruct (fw <? 0); auto. Qed.
Lemma mark_none t hash i none : znth (mlookup t) (hash mod mM t) = Some i -> i < 0 -> mark_or none (table_mark t hash) = none.
Proof. intros E N. unfold table_mark. rewrite E. destruct (Z.ltb_spec i 0); [|lia]. auto. Qed.

(** The packets of a flow for lb: native, or encapsulated to the port of sctp_encap *)
Lemma lb_key g eth data f : flow_ok f ->
  (flow_packet eth data f /\ (fl_proto f = 17 -> l_encap g <> 0 -> port_num (fl_dport f) <> l_encap g) \/
   l_encap g <> 0 /\ encap_packet eth data (l_encap g) f) ->
  exists rc, getHashKey (S (length data)) (l_encap g) eth data = Ok (Some (rc, mk_flow_key f, None)) /\ Z.land rc 3 = 0 /\ Z.land rc 1 = 0.
Proof.
  intros O [(H & E)|(N & H)].
  - exists 0. split; [apply plain_key; auto|auto].
  - exists 4. split; [apply encap_key; auto|auto].
Qed.
Lemma lb_exact g w0 now done eth data f w1 tr w v t : flow_ok f ->
  (flow_packet eth data f /\ (fl_proto f = 17 -> l_encap g <> 0 -> port_num (fl_dport f) <> l_encap g) \/
   l_encap g <> 0 /\ encap_packet eth data (l_encap g) f) ->
  lstep g w0 (LArrive now done eth data) = Some (LCont w1) -> lexec g w1 tr w ->
  (forall w', lpassed g w1 tr w w' -> t_mem (lw_st w') (l_target g) = t) ->
  znth (lw_pk w) (zlen (lw_pk w0)) = Some (Ret (Verdict v)) ->
  v = mark_or (h_notargets (l_h g)) (table_mark t (flow_hash (h_mode (l_h g)) f)).
Proof.
  intros O HF E H HT Z. destruct (lb_key g eth data f O HF) as (rc & EK & R3 & R1).
  set (x := mark_or _ _).
  set (P := mkP (fun _ => True) (fun v => v = x) (fun s => t_mem s (l_target g) = t) (fun _ => True)).
  destruct (ltrack g P (zlen (lw_pk w0)) w1 tr w H) as (p & Z' & V).
  - intros s. exact I.
  - exact HT.
  - cbn [lstep] in E. injection E as <-. cbn [lw_pk]. exists (lbPacket g now done eth data). split; [apply znth_mid|].
    unfold lbPacket. rewrite EK, R3. cbn [Z.eqb]. unfold balance. rewrite (flow_key_hash f _ O). rewrite R1. cbn [Z.eqb].
    apply (vok_read_exact P _ _ _ t).
    + intros s r W R. assert (r = l_target g) as -> by congruence. exact W.
    + intros i EI N. destruct (Z.ltb_spec i 0); [|lia]. cbn [vok P p_verdict]. unfold x. rewrite (mark_none t _ i _ EI N). auto.
    + intros i fw EI N EF. assert (X : x = if fw <? 0 then h_notargets (l_h g) else fw) by (apply (mark_some t _ i fw _ EI N EF)).
      destruct (fw <? 0); cbn [vok P p_verdict]; auto.
  - assert (p = Ret (Verdict v)) as -> by congruence. exact V.
Qed.
Lemma run_mark reg hash k s r : reg s = Some r -> table_ok (t_mem s r) -> exists x, runp (readTable reg hash k) s = runp (k x) s /\
  forall none, mark_or none (table_mark (t_mem s r) hash) = if x <? 0 then none else x.
Proof.
  intros R (M & L & A). destruct (znth_in_range _ (mlookup (t_mem s r)) (hash mod mM (t_mem s r))) as (i & EI).
  { rewrite L. apply Z.mod_pos_bound. auto. }
  assert (MN : mM (t_mem s r) <> 0) by lia. pose proof (run_read reg hash k s r i R MN EI) as RR. destruct (Z.ltb_spec i 0) as [N|N].
  - exists i. split; auto. intros none. rewrite (mark_none _ _ _ _ EI N). destruct (Z.ltb_spec i 0); [auto|lia].
  - specialize (A i (znth_In _ _ _ _ EI)). destruct (znth_in_range _ (mactive (t_mem s r)) i) as (fw & EF); [lia|]. rewrite EF in RR.
    exists fw. split; auto. intros none. apply (mark_some _ _ i fw none EI N EF).
Qed.
Lemma lb_served g now done eth data f s : flow_ok f ->
  (flow_packet eth data f /\ (fl_proto f = 17 -> l_encap g <> 0 -> port_num (fl_dport f) <> l_encap g) \/
   l_encap g <> 0 /\ encap_packet eth data (l_encap g) f) ->
  table_ok (t_mem s (l_target g)) ->
  runp (lbPacket g now done eth data) s =
    Some (Verdict (mark_or (h_notargets (l_h g)) (table_mark (t_mem s (l_target g)) (flow_hash (h_mode (l_h g)) f))), s, []).
Proof.
  intros O HF T. destruct (lb_key g eth data f O HF) as (rc & EK & R3 & R1).
  unfold lbPacket. rewrite EK, R3. cbn [Z.eqb]. unfold balance. rewrite (flow_key_hash f _ O). rewrite R1. cbn [Z.eqb].
  match goal with |- runp (readTable ?reg ?h ?k) s = _ => destruct (run_mark reg h k s (l_target g) eq_refl T) as (x & -> & X) end.
  rewrite X. destruct (x <? 0); reflexivity.
Qed.

(** ** flowlb *)
Lemma lookup_udp ping set k eth p : forall u r u', flowLookup ping set k eth p u = Ok (r, u') ->
  u' = u \/ exists f, In f set /\ flowMatch ping k f eth p = Ok Match /\ f_udpencap f = u'.
Proof.
  induction set as [|f set IH]; intros u r u' H; cbn [flowLookup] in H; [left; congruence|].
  destruct (flowMatch ping k f eth p) as [v| | |] eqn:EV; cbn [obind] in H; try discriminate.
  assert (X : forall u1, (u1 = u \/ v = Match /\ u1 = f_udpencap f) -> (u' = u1 \/ exists f, In f set /\ flowMatch ping k f eth p = Ok Match /\ f_udpencap f = u') ->
     u' = u \/ exists f0, In f0 (f :: set) /\ flowMatch ping k f0 eth p = Ok Match /\ f_udpencap f0 = u').
  { intros u1 U1 [->|(g & G1 & G2)]; [|right; exists g; split; auto; right; auto]. destruct U1 as [->|(-> & ->)]; auto. right. exists f. split; [left; auto|auto]. }
  set (u1 := match v with Match => f_udpencap f | _ => u end) in H.
  assert (U1 : u1 = u \/ v = Match /\ u1 = f_udpencap f) by (unfold u1; destruct v; auto).
  apply (X u1 U1). destruct (_ =? 0); [apply (IH u1 r u'); auto|]. left. congruence.
Qed.
Lemma ping_lookup ping set f eth p u : flow_ok f -> flowLookup ping set (mk_flow_key f) eth p u = flowLookup false set (mk_flow_key f) eth p u.
Proof.
  intros O. destruct ping; auto. destruct (key_fields f O) as (E & _). destruct O as (_ & _ & P & _). apply ping_others; lia.
Qed.

(** What the flows of a set say about a packet of a flow: [Some n] - the flow named n, of highest
    priority among those that accept it and have a target; None - there is none.  *)
Lemma no_second (h : hconf) L ops set ans (R : chars -> rule) eth data fl l4 a u :
  libc_ok L -> run L [] ops = Ok (set, ans) -> (forall n a, current ops ans n = Some a -> means L a (R n)) ->
  flow_ok fl -> l4_packet eth data (fl_proto fl) (fl_src fl) (fl_dst fl) l4 -> ports_at data l4 (fl_sport fl) (fl_dport fl) ->
  (forall n a, current ops ans n = Some a -> r_match (R n) <> None -> complete_plus data (fl_proto fl) l4) ->
  (fl_proto fl = 17 -> port_num (fl_dport fl) <> 0 /\
     forall n a, current ops ans n = Some a -> accepts_packet (R n) fl data l4 -> a_udpencap a <> port_num (fl_dport fl)) ->
  flowLookup false set (mk_flow_key fl) eth (Some data) 0 = Ok (a, u) ->
  ((kproto (mk_flow_key fl) =? 17) && (kdport (mk_flow_key fl) =? u) = false)%bool.
Proof.
  intros HL HR HM OK P4 PA HC HU HF. destruct (key_fields fl OK) as (K1 & _ & K3). rewrite K1, K3.
  destruct (Z.eqb_spec (fl_proto fl) 17) as [E|N]; auto. destruct (HU E) as (NZ & HN). cbn [andb]. apply Z.eqb_neq.
  destruct (lookup_udp _ _ _ _ _ _ _ _ HF) as [->|(g & G & GM & GU)]; auto. rewrite <- GU. apply not_eq_sym.
  destruct (run_inv L ops HL [] _ set ans (inv_nil L) HR) as ((I1 & I2 & I3 & I4) & _). fold (current ops ans) in *.
  destruct (I3 g G) as (x & A1 & A2). pose proof (HM _ _ A1) as M1.
  destruct (makeFlow_ok L x _ HL M1) as (f' & EF & AG). assert (f' = g) by congruence. subst f'.
  destruct (match_one x _ g fl eth data l4 AG OK P4 PA) as (v & V1 & V2); [intros X; eapply HC; eauto|].
  assert (v = Match) as -> by congruence. pose proof (HN _ _ A1 (proj1 V2 eq_refl)) as X. destruct AG as (_ & _ & _ & Y & _). congruence.
Qed.
Lemma flowlb_exact h w0 now done eth data fl l4 w1 ev tr w v L ops set ans (R : chars -> rule) :
  libc_ok L -> run L [] ops = Ok (set, ans) -> (forall n a, current ops ans n = Some a -> means L a (R n)) ->
  flow_ok fl -> l4_packet eth data (fl_proto fl) (fl_src fl) (fl_dst fl) l4 -> ports_at data l4 (fl_sport fl) (fl_dport fl) ->
  (forall n a, current ops ans n = Some a -> r_match (R n) <> None -> complete_plus data (fl_proto fl) l4) ->
  (fl_proto fl = 17 -> port_num (fl_dport fl) <> 0 /\
     forall n a, current ops ans n = Some a -> accepts_packet (R n) fl data l4 -> a_udpencap a <> port_num (fl_dport fl)) ->
  step h w0 (Arrive now done eth data) = Some (Cont w1 ev) -> exec h anything w1 tr w ->
  (forall w', passed h w1 tr w w' -> t_set (w_st w') = set) ->
  znth (w_pk w) (zlen (w_pk w0)) = Some (Ret (Verdict v)) ->
  (exists n a, current ops ans n = Some a /\ a_ref a <> 0 /\ accepts_packet (R n) fl data l4 /\
     (forall n' a', current ops ans n' = Some a' -> a_ref a' <> 0 -> accepts_packet (R n') fl data l4 -> a_priority a' <= a_priority a) /\
     forall t, (forall w' r, passed h w1 tr w w' -> lbRegion (a_ref a) (w_st w') = Some r -> t_mem (w_st w') r = t) ->
       v = mark_or (h_notargets h) (table_mark t (flow_hash (h_mode h) fl))) \/
  v = h_nolb h /\ forall n a, current ops ans n = Some a -> accepts_packet (R n) fl data l4 -> a_ref a = 0.
Proof.
  intros HL HR HM OK P4 PA HC HU E H HS Z.
  destruct (classification L ops set ans R (length data) eth data fl l4 0 HL HR HM OK P4 PA HC) as (k & r & u' & EK & EF & CA & C0).
  assert (EK' : getHashKey (S (length data)) 0 eth data = Ok (Some (0, mk_flow_key fl, None))).
  { apply plain_key; [auto|exists l4; auto|congruence]. }
  assert (k = mk_flow_key fl) as -> by congruence.
  pose proof (no_second h L ops set ans R eth data fl l4 r u' HL HR HM OK P4 PA HC HU EF) as NS.
  assert (TR : forall P, (forall s, p_frag P s) -> (forall w', passed h w1 tr w w' -> p_state P (w_st w')) ->
     (forall s, p_state P s -> t_set s = set) -> vok P (forward h now done 0 (mk_flow_key fl) None r) -> p_verdict P v).
  { intros P F W WS VF. destruct (track h P (zlen (w_pk w0)) w1 tr w H F W) as (p & Z' & V).
    - cbn [step] in E. injection E as <- <-. cbn [w_pk]. exists (packet h now done eth data). split; [apply znth_mid|].
      unfold packet. rewrite EK'. change (Z.land 0 3 =? 0) with true. cbv iota. unfold classify. apply vok_act. intros s WSs Fs.
      rewrite (WS s WSs), (ping_lookup _ _ _ _ _ _ OK), EF. destruct (Z.eqb_spec r 0) as [->|N].
      + split; [auto|]. rewrite NS. exact VF.
      + destruct (lockRef s r) as [s'|] eqn:EL; [|exact I]. split; [auto|]. rewrite NS. exact VF.
    - assert (p = Ret (Verdict v)) as -> by congruence. exact V. }
  destruct (Z.eq_dec r 0) as [->|NR].
  - right. split; [|apply C0; auto].
    apply (TR (mkP (fun _ => True) (fun v => v = h_nolb h) (fun s => t_set s = set) (fun _ => True)));
      [intros; exact I|exact HS|intros s0 X; exact X|reflexivity].
  - left. destruct (CA NR) as (n & a & CU & AR & AC & MX). exists n, a. split; [auto|]. split; [congruence|]. split; [auto|]. split; [auto|].
    intros t HT. rewrite AR in HT. set (x := mark_or _ _).
    set (P := mkP (fun _ => True) (fun v => v = x) (fun s => t_set s = set /\ forall r', lbRegion r s = Some r' -> t_mem s r' = t) (fun _ => True)).
    apply (TR P); [intros; exact I|intros w' X; split; [auto|intros r' X'; eapply HT; eauto]|intros s WSs; apply WSs|].
    unfold forward. rewrite (proj2 (Z.eqb_neq _ _) NR). rewrite (flow_key_hash fl _ OK). change (Z.land 0 1 =? 0) with true. cbv iota.
    assert (TT : forall p, vok P p -> vok P (traceTarget h r p)).
    { intros p Hp. unfold traceTarget. destruct (h_trace h); auto. apply vok_act. intros s W F. destruct (deref s r); [split; auto|exact I]. }
    apply (vok_read_exact P _ _ _ t).
    + intros s r' W X. apply (proj2 W r' X).
    + intros i EI N. apply vok_release, TT. destruct (Z.ltb_spec i 0); [|lia]. cbn [vok P p_verdict]. unfold x. rewrite (mark_none t _ i _ EI N). auto.
    + intros i fw EI N EFW. apply vok_release, TT. assert (X : x = if fw <? 0 then h_notargets h else fw) by (apply (mark_some t _ i fw _ EI N EFW)).
      destruct (fw <? 0); cbn [vok P p_verdict]; auto.
Qed.
(** A flow that accepts the packet and has a target; the object is in use. *)
Lemma flowlb_served h now done eth data fl l4 s L ops ans (R : chars -> rule) :
  libc_ok L -> run L [] ops = Ok (t_set s, ans) -> (forall n a, current ops ans n = Some a -> means L a (R n)) ->
  flow_ok fl -> l4_packet eth data (fl_proto fl) (fl_src fl) (fl_dst fl) l4 -> ports_at data l4 (fl_sport fl) (fl_dport fl) ->
  (forall n a, current ops ans n = Some a -> r_match (R n) <> None -> complete_plus data (fl_proto fl) l4) ->
  (fl_proto fl = 17 -> port_num (fl_dport fl) <> 0 /\
     forall n a, current ops ans n = Some a -> accepts_packet (R n) fl data l4 -> a_udpencap a <> port_num (fl_dport fl)) ->
  (forall n a, current ops ans n = Some a -> a_ref a <> 0 -> accepts_packet (R n) fl data l4 ->
     exists o, deref s (a_ref a) = Some o /\ 1 <= lb_ref o < 2147483647 /\ table_ok (t_mem s (lb_region o))) ->
  exists v ev, runp (packet h now done eth data) s = Some (Verdict v, s, ev) /\
  ((exists n a o, current ops ans n = Some a /\ a_ref a <> 0 /\ accepts_packet (R n) fl data l4 /\
     (forall n' a', current ops ans n' = Some a' -> a_ref a' <> 0 -> accepts_packet (R n') fl data l4 -> a_priority a' <= a_priority a) /\
     deref s (a_ref a) = Some o /\ v = mark_or (h_notargets h) (table_mark (t_mem s (lb_region o)) (flow_hash (h_mode h) fl))) \/
  v = h_nolb h /\ forall n a, current ops ans n = Some a -> accepts_packet (R n) fl data l4 -> a_ref a = 0).
Proof.
  intros HL HR HM OK P4 PA HC HU HO.
  destruct (classification L ops (t_set s) ans R (length data) eth data fl l4 0 HL HR HM OK P4 PA HC) as (k & r & u' & EK & EF & CA & C0).
  assert (EK' : getHashKey (S (length data)) 0 eth data = Ok (Some (0, mk_flow_key fl, None))).
  { apply plain_key; [auto|exists l4; auto|congruence]. }
  assert (k = mk_flow_key fl) as -> by congruence.
  pose proof (no_second h L ops (t_set s) ans R eth data fl l4 r u' HL HR HM OK P4 PA HC HU EF) as NS.
  rewrite <- (ping_lookup (h_ping h) _ _ _ _ _ OK) in EF.
  unfold packet. rewrite EK'. change (Z.land 0 3 =? 0) with true. cbv iota. unfold classify.
  destruct (Z.eq_dec r 0) as [->|NR].
  - exists (h_nolb h), []. split; [|right; split; [reflexivity|exact (C0 eq_refl)]]. rewrite (run_lookup0 _ _ _ _ _ _ _ _ EF). rewrite NS. reflexivity.
  - destruct (CA NR) as (n & a & CU & AR & AC & MX). destruct (HO n a CU) as (o & D & RF & T); [congruence|auto|]. rewrite AR in D.
    assert (LK : lockRef s r = Some (put s r (mkLb (lb_target o) (lb_ref o + 1) (lb_region o) (lb_freed o)))).
    { unfold lockRef. rewrite D, FlowLb_Proofs.s32_small by lia. auto. }
    rewrite (run_lookup _ _ _ _ _ _ _ _ _ _ EF NR LK), NS. unfold forward. rewrite (proj2 (Z.eqb_neq _ _) NR), (flow_key_hash fl _ OK).
    set (s1 := put s r _). assert (D1 : deref s1 r = Some (mkLb (lb_target o) (lb_ref o + 1) (lb_region o) (lb_freed o))).
    { unfold s1. rewrite (FlowLb_Proofs.deref_put s r _ r o D), Z.eqb_refl. cbn [lb_freed]. rewrite (FlowLb_Proofs.deref_freed s r o D). auto. }
    match goal with |- context [readTable ?reg ?hh ?kk] => destruct (run_mark reg hh kk s1 (lb_region o)) as (x & -> & X) end.
    { unfold lbRegion. rewrite D1. auto. }
    { exact T. }
    rewrite (run_release Quiet r _ s1 _ D1 NR) by (cbn [lb_ref]; lia). cbn [lb_ref lb_target lb_region lb_freed].
    assert (S2 : put s1 r (mkLb (lb_target o) (lb_ref o + 1 - 1) (lb_region o) (lb_freed o)) = s).
    { unfold s1, put. cbn [set_objs t_objs]. unfold set_objs. cbn [t_list t_set t_ft t_shm t_mem t_tun t_objs].
      rewrite FlowLb5_Proofs.zupd_twice. replace (lb_ref o + 1 - 1) with (lb_ref o) by lia.
      rewrite FlowLb5_Proofs.zupd_same; [destruct s; reflexivity|]. unfold deref in D. destruct (znth (t_objs s) (r - 1)) as [o'|]; [|discriminate].
      destruct (lb_freed o'); [discriminate|]. assert (o' = o) as -> by congruence. destruct o. reflexivity. }
    rewrite S2.
    assert (TT : forall p, runp (traceTarget h r p) s = runp p s).
    { intros p. unfold traceTarget. destruct (h_trace h); auto. rewrite (run_act _ _ s [] s p); [apply after_nil|]. rewrite D. auto. }
    rewrite TT. change (Z.land 0 1 =? 0) with true. cbv iota. specialize (X (h_notargets h)). change (t_mem s1) with (t_mem s) in X.
    exists (if x <? 0 then h_notargets h else x), [Took r; Gave r]. split; [destruct (x <? 0); reflexivity|].
    left. exists n, a, o. rewrite AR. auto 10.
Qed.
