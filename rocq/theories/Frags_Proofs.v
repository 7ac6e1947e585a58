(** Fragments on the host (C79): the programs for first fragments and other fragments. *)
From Coq Require Import String.
From Verif Require Import Base Lists Cstr_Model IpKey_Model IpKey_Spec IpKey_Proofs IpKey2_Proofs Maglev_Model Match_Spec Match_Proofs Flow_Model Flow_Spec Flow_Proofs Flow2_Proofs Flow3_Proofs
  Remote_Model FlowLb_Model FlowLb_Spec FlowLb4_Proofs Lb_Model Lb_Spec Lb_Proofs Lb2_Proofs Lb3_Proofs Fwmark_Spec Fwmark2_Proofs.
From Verif Require Match_Model Frag_Model FlowLb_Proofs FlowLb5_Proofs Host_Proofs.

(** ** Classification, when the place of the transport header is known if it is needed *)
Definition seen_l4 (r : rule) (eth : Z) (data : list Z) (fl : flow) (l4 : Z) : Prop :=
  r_match r <> None -> Match_Proofs.found eth data (fl_proto fl) l4 /\ complete_plus data (fl_proto fl) l4.
Lemma match_at a r f fl eth data l4 : agrees a r f -> flow_ok fl -> seen_l4 r eth data fl l4 ->
  exists v, flowMatch false (mk_flow_key fl) f eth (Some data) = Ok v /\ (hit v = true <-> accepts_packet r fl data l4).
Proof.
  intros (_ & _ & _ & _ & AP & AD & AS & ADS & ASS & AM) FK C.
  destruct (key_fields fl FK) as (K1 & K2 & K3). pose proof FK as (BS & BD & PP & _).
  unfold flowMatch, accepts_packet, accepts_addr. rewrite K1, K2, K3.
  change (k_dst (mk_flow_key fl)) with (fl_dst fl). change (k_src (mk_flow_key fl)) with (fl_src fl).
  specialize (ADS _ BD). specialize (ASS _ BS). specialize (AP (fl_proto fl)).
  destruct (inCidrs (f_dsts f) (fl_dst fl)); cbn [negb].
  2:{ exists NoMatch. split; auto. cbn. split; [discriminate|]. intros ((X & _) & _). apply ADS in X. discriminate. }
  destruct (inCidrs (f_srcs f) (fl_src fl)); cbn [negb].
  2:{ exists NoMatch. split; auto. cbn. split; [discriminate|]. intros ((_ & X) & _). apply ASS in X. discriminate. }
  cbn [andb].
  destruct (match f_protocols f with None => true | Some l => existsb (Z.eqb (fl_proto fl)) l end); cbn [negb].
  2:{ exists NoMatch. split; auto. cbn. split; [discriminate|]. intros (_ & X & _). apply AP in X. discriminate. }
  destruct (AD (port_num (fl_dport fl))) as (bd & -> & ED). cbn [obind].
  destruct bd; cbn [negb].
  2:{ exists NoMatch. split; auto. cbn. split; [discriminate|]. intros (_ & _ & X & _). apply ED in X. discriminate. }
  destruct (AS (port_num (fl_sport fl))) as (bs & -> & ES). cbn [obind].
  destruct bs; cbn [negb].
  2:{ exists NoMatch. split; auto. cbn. split; [discriminate|]. intros (_ & _ & _ & X & _). apply ES in X. discriminate. }
  assert (M : exists b, match f_match f with Some m => Match_Model.matchMatches (Some m) eth (fl_proto fl) data | None => Ok true end = Ok b /\
                (b = true <-> all_or (r_match r) (fun es => accepts es (fl_proto fl) data l4))).
  { unfold match_agree in AM. destruct (f_match f) as [m|], (r_match r) as [es|] eqn:RM; try contradiction.
    - destruct C as (C1 & C2); [congruence|]. unfold complete_plus in C2. apply AM; auto. intros ->. lia.
    - exists true. cbn. tauto. }
  destruct M as (b & EB & HB). rewrite EB. cbn [obind].
  exists (if b then Match else NoMatch). split; auto. destruct b; cbn [hit].
  - split; [intros _|auto]. tauto.
  - split; [discriminate|]. intros (_ & _ & _ & _ & X). apply HB in X. discriminate.
Qed.
Section Classify.
Context (L : libc) (ops : list op) (set : list frec) (ans : list Flow_Spec.answer) (R : chars -> rule) (eth : Z) (data : list Z) (fl : flow) (l4 : Z).
Context (HL : libc_ok L) (HR : run L [] ops = Ok (set, ans)) (HM : forall n a, current ops ans n = Some a -> means L a (R n)) (OK : flow_ok fl)
  (HC : forall n a, current ops ans n = Some a -> seen_l4 (R n) eth data fl l4).
Lemma classify_at u : exists r u', flowLookup false set (mk_flow_key fl) eth (Some data) u = Ok (r, u') /\
    (r <> 0 -> exists n a, current ops ans n = Some a /\ a_ref a = r /\ accepts_packet (R n) fl data l4 /\
       forall n' a', current ops ans n' = Some a' -> a_ref a' <> 0 -> accepts_packet (R n') fl data l4 ->
         a_priority a' <= a_priority a) /\
    (r = 0 -> forall n' a', current ops ans n' = Some a' -> accepts_packet (R n') fl data l4 -> a_ref a' = 0).
Proof.
  destruct (run_inv L ops HL [] _ set ans (inv_nil L) HR) as ((I1 & I2 & I3 & I4) & _).
  fold (current ops ans) in *.
  destruct (lookup_first false set (mk_flow_key fl) eth (Some data)
    (fun f => accepts_packet (R (f_name f)) fl data l4) I1) with (u := u) as (r & u' & E & A & B).
  { intros f F. destruct (I3 f F) as (a & A1 & A2). pose proof (HM _ _ A1) as MM.
    destruct (makeFlow_ok L a _ HL MM) as (f' & EF & AG). assert (f' = f) by congruence. subst f'.
    eapply match_at; eauto. }
  exists r, u'. split; auto.
  assert (FA : forall n a, current ops ans n = Some a -> exists f, In f set /\ f_name f = n /\ f_ref f = a_ref a /\ f_priority f = a_priority a).
  { intros n a K. destruct (I4 _ _ K) as (AN & f & F1 & F2). exists f. split; auto.
    destruct (makeFlow_fields _ _ _ F2) as (X1 & X2 & X3 & _). repeat split; congruence. }
  split.
  - intros N. destruct (A N) as (f & F1 & F2 & F3 & F4). destruct (I3 f F1) as (a & A1 & A2).
    destruct (makeFlow_fields _ _ _ A2) as (X1 & X2 & X3 & _).
    exists (f_name f), a. split; auto. split; [congruence|]. split; auto.
    intros n' a' K1 K2 K3. destruct (FA _ _ K1) as (g & G1 & G2 & G3 & G4).
    rewrite <- X2, <- G4. apply F4; auto; congruence.
  - intros Z0 n' a' K1 K2. destruct (FA _ _ K1) as (g & G1 & G2 & G3 & G4). rewrite <- G3. apply (B Z0); auto. congruence.
Qed.
Lemma no_second_at a u : (fl_proto fl = 17 -> port_num (fl_dport fl) <> 0 /\
     forall n a, current ops ans n = Some a -> accepts_packet (R n) fl data l4 -> a_udpencap a <> port_num (fl_dport fl)) ->
  flowLookup false set (mk_flow_key fl) eth (Some data) 0 = Ok (a, u) ->
  ((kproto (mk_flow_key fl) =? 17) && (kdport (mk_flow_key fl) =? u) = false)%bool.
Proof.
  intros HU HF. destruct (key_fields fl OK) as (K1 & _ & K3). rewrite K1, K3.
  destruct (Z.eqb_spec (fl_proto fl) 17) as [E|N]; auto. destruct (HU E) as (NZ & HN). cbn [andb]. apply Z.eqb_neq.
  destruct (lookup_udp _ _ _ _ _ _ _ _ HF) as [->|(g & G & GM & GU)]; auto. rewrite <- GU. apply not_eq_sym.
  destruct (run_inv L ops HL [] _ set ans (inv_nil L) HR) as ((I1 & I2 & I3 & I4) & _). fold (current ops ans) in *.
  destruct (I3 g G) as (x & A1 & A2). pose proof (HM _ _ A1) as M1.
  destruct (makeFlow_ok L x _ HL M1) as (f' & EF & AG). assert (f' = g) by congruence. subst f'.
  destruct (match_at x _ g fl eth data l4 AG OK (HC _ _ A1)) as (v & V1 & V2).
  assert (v = Match) as -> by congruence. pose proof (HN _ _ A1 (proj1 V2 eq_refl)) as X. destruct AG as (_ & _ & _ & Y & _). congruence.
Qed.
(** The program, up to the fragment table *)
Definition rest (h : hconf) (now : Z) (done : bool) (rc : Z) (fi : option (list Z)) (x : Z) : prog :=
  if x <? 0 then Ret (Verdict (h_notargets h)) else if Z.land rc 1 =? 0 then Ret (Verdict x) else firstFragment h now done (mk_flow_key fl) fi x.
Lemma classify_run h now done s rc fi : t_set s = set ->
  (fl_proto fl = 17 -> port_num (fl_dport fl) <> 0 /\
     forall n a, current ops ans n = Some a -> accepts_packet (R n) fl data l4 -> a_udpencap a <> port_num (fl_dport fl)) ->
  (forall n a, current ops ans n = Some a -> a_ref a <> 0 -> accepts_packet (R n) fl data l4 ->
     exists o, deref s (a_ref a) = Some o /\ 1 <= lb_ref o < 2147483647 /\ table_ok (t_mem s (lb_region o))) ->
  (exists n a o x ev, current ops ans n = Some a /\ a_ref a <> 0 /\ accepts_packet (R n) fl data l4 /\
     (forall n' a', current ops ans n' = Some a' -> a_ref a' <> 0 -> accepts_packet (R n') fl data l4 -> a_priority a' <= a_priority a) /\
     deref s (a_ref a) = Some o /\ (forall none, mark_or none (table_mark (t_mem s (lb_region o)) (flow_hash (h_mode h) fl)) = if x <? 0 then none else x) /\
     runp (classify h now done eth data rc (mk_flow_key fl) fi) s = after ev (runp (rest h now done rc fi x) s)) \/
  runp (classify h now done eth data rc (mk_flow_key fl) fi) s = Some (Verdict (h_nolb h), s, []) /\
    forall n a, current ops ans n = Some a -> accepts_packet (R n) fl data l4 -> a_ref a = 0.
Proof.
  intros ES HU HO. destruct (classify_at 0) as (r & u' & EF & CA & C0).
  pose proof (no_second_at r u' HU EF) as NS. rewrite <- ES in EF.
  rewrite <- (ping_lookup (h_ping h) _ _ _ _ _ OK) in EF. unfold classify.
  destruct (Z.eq_dec r 0) as [->|NR].
  - right. split; [|exact (C0 eq_refl)]. rewrite (run_lookup0 _ _ _ _ _ _ _ _ EF). rewrite NS. reflexivity.
  - left. destruct (CA NR) as (n & a & CU & AR & AC & MX). destruct (HO n a CU) as (o & D & RF & T); [congruence|auto|]. rewrite AR in D.
    assert (LK : lockRef s r = Some (put s r (mkLb (lb_target o) (lb_ref o + 1) (lb_region o) (lb_freed o)))).
    { unfold lockRef. rewrite D, FlowLb_Proofs.s32_small by lia. auto. }
    rewrite (run_lookup _ _ _ _ _ _ _ _ _ _ EF NR LK), NS. unfold forward. rewrite (proj2 (Z.eqb_neq _ _) NR), (flow_key_hash fl _ OK).
    set (s1 := put s r _). assert (D1 : deref s1 r = Some (mkLb (lb_target o) (lb_ref o + 1) (lb_region o) (lb_freed o))).
    { unfold s1. rewrite (FlowLb_Proofs.deref_put s r _ r o D), Z.eqb_refl. cbn [lb_freed]. rewrite (FlowLb_Proofs.deref_freed s r o D). auto. }
    match goal with |- context [readTable ?reg ?hh ?kk] => destruct (run_mark reg hh kk s1 (lb_region o)) as (x & -> & X) end.
    { unfold lbRegion. rewrite D1. auto. }
    { exact T. }
    rewrite (run_release Quiet r _ s1 _ D1 NR) by (cbn [lb_ref]; lia). cbn [lb_ref lb_target lb_region lb_freed].
    assert (S2 : put s1 r (mkLb (lb_target o) (lb_ref o + 1 - 1) (lb_region o) (lb_freed o)) = s).
    { unfold s1, put. cbn [set_objs t_objs]. unfold set_objs. cbn [t_list t_set t_ft t_shm t_mem t_tun t_objs].
      rewrite FlowLb5_Proofs.zupd_twice. replace (lb_ref o + 1 - 1) with (lb_ref o) by lia.
      rewrite FlowLb5_Proofs.zupd_same; [destruct s; reflexivity|]. unfold deref in D. destruct (znth (t_objs s) (r - 1)) as [o'|]; [|discriminate].
      destruct (lb_freed o'); [discriminate|]. assert (o' = o) as -> by congruence. destruct o. reflexivity. }
    rewrite S2.
    assert (TT : forall p, runp (traceTarget h r p) s = runp p s).
    { intros p. unfold traceTarget. destruct (h_trace h); auto. rewrite (run_act _ _ s [] s p); [apply after_nil|]. rewrite D. auto. }
    rewrite TT. exists n, a, o, x. eexists. split; [exact CU|]. split; [congruence|]. split; [exact AC|]. split; [exact MX|]. split; [rewrite AR; exact D|].
    split; [exact X|]. unfold rest. rewrite Host_Proofs.after_after. reflexivity.
Qed.
End Classify.
