(** Lines that end the program; flowlb (C75). *)
From Coq Require Import String Lia.
From Verif Require Import Base Lists Cstr_Model IpKey_Model IpKey_Spec Maglev_Model Rangeset_Model Rangeset_Spec Remote_Model Opt_Model Opt_Spec Opt_Proofs Opt2_Proofs Util_Proofs
  Stats_Model Match_Spec Flow_Model Flow_Spec Flow3_Proofs FlowLb_Model FlowLb4_Proofs Lb_Model Lb_Spec Lb3_Proofs Opt_Model Opt_Spec Start_Model Start_Spec Start_Proofs Start2_Proofs.
From Verif Require Frag_Model.

Lemma value_same opts its n v v' : Opt_Spec.table_ok opts -> value_of opts its n v -> value_of opts its n v' -> v = v'.
Proof.
  intros T (i & o & O & N & V) (i' & o' & O' & N' & V'). assert (i' = i) by (apply (names_unique opts i' i o' o); [apply T|assumption|assumption|congruence]). subst i'. eapply value_unique; eauto.
Qed.

Lemma flowlb_vals words vals rest : parseOptions flowlbOpts words = Ok (Parsed vals rest) ->
  exists its tail v0 lbshm mtu tun reasm ping notargets nolb mode queue qlen ftshm size buckets frag ttl v16,
    words = line its tail /\ Forall (item_ok flowlbOpts) its /\ rest = rest_words its tail /\
    vals = [v0; lbshm; Some mtu; tun; Some reasm; ping; Some notargets; Some nolb; Some mode; Some queue; Some qlen; Some ftshm;
            Some size; Some buckets; Some frag; Some ttl; v16] /\
    (forall i o n v, znth flowlbOpts i = Some o -> p_name o = str n -> znth vals i = Some v -> value_of flowlbOpts its n v).
Proof.
  intros P. destruct flowlb_table as [TO RQ]. destruct (accepted_line flowlbOpts words vals rest TO P) as (its & tail & EL & F & _ & ER & L & V).
  destruct (vals17 _ vals L) as (v0 & v1 & v2 & v3 & v4 & v5 & v6 & v7 & v8 & v9 & va & vb & vc & vd & ve & vf & vg & ->).
  assert (S : forall j o d v, znth flowlbOpts j = Some o -> p_var o = true -> p_default o = Some d -> streq d (str "no") = false ->
     znth [v0; v1; v2; v3; v4; v5; v6; v7; v8; v9; va; vb; vc; vd; ve; vf; vg] j = Some v -> exists x, v = Some x).
  { intros j o d v HO H1 H2 H3 HV. destruct v as [x|]; [eauto|]. exfalso.
    eapply (value_some flowlbOpts its j o d None TO F HO H1 H2); [|apply V; exact HV|reflexivity]. intros ->. rewrite streq_refl in H3. discriminate. }
  destruct (S 2 _ _ v2 eq_refl eq_refl eq_refl eq_refl eq_refl) as (x2 & ->).
  destruct (S 4 _ _ v4 eq_refl eq_refl eq_refl eq_refl eq_refl) as (x4 & ->).
  destruct (S 6 _ _ v6 eq_refl eq_refl eq_refl eq_refl eq_refl) as (x6 & ->).
  destruct (S 7 _ _ v7 eq_refl eq_refl eq_refl eq_refl eq_refl) as (x7 & ->).
  destruct (S 8 _ _ v8 eq_refl eq_refl eq_refl eq_refl eq_refl) as (x8 & ->).
  destruct (S 9 _ _ v9 eq_refl eq_refl eq_refl eq_refl eq_refl) as (x9 & ->).
  destruct (S 10 _ _ va eq_refl eq_refl eq_refl eq_refl eq_refl) as (xa & ->).
  destruct (S 11 _ _ vb eq_refl eq_refl eq_refl eq_refl eq_refl) as (xb & ->).
  destruct (S 12 _ _ vc eq_refl eq_refl eq_refl eq_refl eq_refl) as (xc & ->).
  destruct (S 13 _ _ vd eq_refl eq_refl eq_refl eq_refl eq_refl) as (xd & ->).
  destruct (S 14 _ _ ve eq_refl eq_refl eq_refl eq_refl eq_refl) as (xe & ->).
  destruct (S 15 _ _ vf eq_refl eq_refl eq_refl eq_refl eq_refl) as (xf & ->).
  exists its, tail. do 17 eexists. split; [exact EL|]. split; [auto|]. split; [auto|]. split; [reflexivity|].
  intros i o n v HO HN HV. exists i, o. auto.
Qed.


(** A range that goes backwards *)
Definition backwards (q : chars) : Prop := exists d n e m, q = d ++ str ":" ++ e /\ is_dec d n /\ is_dec e m /\ is_u32 n /\ is_u32 m /\ m < n.

Lemma serve_only A (E : env) i c (mk : Frag_Model.conf -> bool -> A) acts g qs ql m r : Start_Model.serve E i c mk = Ok (acts, Serving g qs ql m r) ->
  m = atoi (m_mtu c) /\ 576 <= m /\ ~ backwards (m_queue c) /\ qs <> [] /\
  (forall d, m_tun c = Some d -> e_tun E d = true /\ m <= e_mtu E d) /\ exists f b, g = mk f b.
Proof.
  unfold Start_Model.serve. destruct (atoi (m_mtu c) <? 576) eqn:E1; [discriminate|]. intros H.
  assert (Q : forall fr acts', match queues (m_queue c) with
      | Ok qs => Ok (acts', Serving (mk fr (match m_tun c with None => false | Some _ => true end)) qs (u32 (atoi (m_qlen c))) (atoi (m_mtu c)) (atoi (m_reasm c)))
      | _ => Ok (acts', Exited) end = Ok (acts, Serving g qs ql m r) ->
    m = atoi (m_mtu c) /\ 576 <= m /\ ~ backwards (m_queue c) /\ qs <> [] /\ exists f b, g = mk f b).
  { intros fr acts' QH. destruct (queues (m_queue c)) as [l| | |] eqn:EQ; try discriminate. injection QH as _ <- <- _ <- _. split; [reflexivity|]. split; [lia|].
    split; [|split; [eapply queue_some; eauto|eauto]]. intros (d & n & e & k & EB & D1 & D2 & U1 & U2 & LT). rewrite EB in EQ. rewrite (queue_wrong d n e k D1 D2 U1 U2 LT) in EQ. discriminate. }
  destruct (m_tun c) as [d|].
  - destruct (e_tun E d) eqn:ET; cbn [negb obind] in H; [|discriminate]. unfold getMtu in H. destruct (40 <? zlen d + 1); cbn [obind] in H; [discriminate|].
    destruct (e_mtu E d <? atoi (m_mtu c)) eqn:EM; [discriminate|]. destruct (Q _ _ H) as (Q1 & Q2 & Q3 & Q4 & Q5).
    repeat (split; [assumption|]). split; [|exact Q5]. intros d' [= <-]. split; [exact ET|lia].
  - cbn [obind] in H. destruct (Q _ _ H) as (Q1 & Q2 & Q3 & Q4 & Q5). repeat (split; [assumption|]). split; [discriminate|exact Q5].
Qed.

Lemma lb_only E i words acts g qs ql m r : cmdLb E i words = Ok (acts, Serving g qs ql m r) ->
  exists its tail tn own q, words = line its tail /\ Forall (item_ok lbOpts) its /\ value_of lbOpts its "tshm" (Some tn) /\ e_shm E tn = Some (l_target g, own) /\
    (forall n, value_of lbOpts its "lbshm" (Some n) -> e_shm E n <> None) /\ value_of lbOpts its "queue" (Some q) /\ ~ backwards q /\ qs <> [] /\ 576 <= m /\
    (forall d, value_of lbOpts its "tun" (Some d) -> e_tun E d = true /\ m <= e_mtu E d).
Proof.
  destruct (parse_ok lbOpts words) as (x & P); [cbn; lia|]. unfold cmdLb. rewrite P. cbn [obind]. destruct x as [| |vals rest]; try discriminate.
  destruct (lb_vals _ _ _ P) as (its & tail & v0 & mtu & tun & reasm & encap & tshm & lbshm & notargets & mode & queue & qlen & ftshm & size & buckets & frag & ttl & v16 & EL & F & _ & -> & V).
  intros H. destruct (e_shm E tshm) as [[t own]|] eqn:ES; [|discriminate]. destruct (tierOf E lbshm) as [tr|] eqn:TT; [|discriminate].
  destruct (serve_only _ _ _ _ _ _ _ _ _ _ _ H) as (_ & Q2 & Q3 & Q4 & Q5 & fc & b & ->). cbn [m_queue m_tun] in *. cbn [l_target].
  destruct lb_table as [TO RQ]. exists its, tail, tshm, own, queue. split; [exact EL|]. split; [exact F|]. split; [apply (V 5 _ _ _ eq_refl eq_refl eq_refl)|]. split; [exact ES|]. split.
  { intros n VN. pose proof (V 6 _ "lbshm"%string _ eq_refl eq_refl eq_refl) as VL. pose proof (value_same _ _ _ _ _ TO VN VL) as EQ. subst lbshm. cbn in TT. destruct (e_shm E n); [discriminate|discriminate TT]. }
  split; [apply (V 9 _ _ _ eq_refl eq_refl eq_refl)|]. split; [exact Q3|]. split; [exact Q4|]. split; [exact Q2|].
  intros d VN. pose proof (V 2 _ "tun"%string _ eq_refl eq_refl eq_refl) as VL. pose proof (value_same _ _ _ _ _ TO VN VL) as EQ. subst tun. auto.
Qed.
Lemma flowlb_only E i words acts g qs ql m r : cmdFlowLb E i words = Ok (acts, Serving g qs ql m r) ->
  exists its tail q, words = line its tail /\ Forall (item_ok flowlbOpts) its /\
    (forall n, value_of flowlbOpts its "lbshm" (Some n) -> e_shm E n <> None) /\ value_of flowlbOpts its "queue" (Some q) /\ ~ backwards q /\ qs <> [] /\ 576 <= m /\
    (forall d, value_of flowlbOpts its "tun" (Some d) -> e_tun E d = true /\ m <= e_mtu E d).
Proof.
  destruct (parse_ok flowlbOpts words) as (x & P); [cbn; lia|]. unfold cmdFlowLb. rewrite P. cbn [obind]. destruct x as [| |vals rest]; try discriminate.
  destruct (flowlb_vals _ _ _ P) as (its & tail & v0 & lbshm & mtu & tun & reasm & ping & notargets & nolb & mode & queue & qlen & ftshm & size & buckets & frag & ttl & v16 & EL & F & _ & -> & V).
  intros H. destruct (tierOf E lbshm) as [tr|] eqn:TT; [|discriminate].
  destruct (serve_only _ _ _ _ _ _ _ _ _ _ _ H) as (_ & Q2 & Q3 & Q4 & Q5 & fc & b & ->). cbn [m_queue m_tun] in *.
  destruct flowlb_table as [TO RQ]. exists its, tail, queue. split; [exact EL|]. split; [exact F|]. split.
  { intros n VN. pose proof (V 1 _ "lbshm"%string _ eq_refl eq_refl eq_refl) as VL. pose proof (value_same _ _ _ _ _ TO VN VL) as EQ. subst lbshm. cbn in TT. destruct (e_shm E n); [discriminate|discriminate TT]. }
  split; [apply (V 9 _ _ _ eq_refl eq_refl eq_refl)|]. split; [exact Q3|]. split; [exact Q4|]. split; [exact Q2|].
  intros d VN. pose proof (V 3 _ "tun"%string _ eq_refl eq_refl eq_refl) as VL. pose proof (value_same _ _ _ _ _ TO VN VL) as EQ. subst tun. auto.
Qed.
Lemma flowlb_no_crash E i words : (exists acts b, cmdFlowLb E i words = Ok (acts, b)) \/
  exists its tail d, words = line its tail /\ Forall (item_ok flowlbOpts) its /\ value_of flowlbOpts its "tun" (Some d) /\ 40 <= zlen d.
Proof.
  destruct (parse_ok flowlbOpts words) as (r & P); [cbn; lia|]. unfold cmdFlowLb. rewrite P. cbn [obind]. destruct r as [| |vals rest]; [left; eauto|left; eauto|].
  destruct (flowlb_vals _ _ _ P) as (its & tail & v0 & lbshm & mtu & tun & reasm & ping & notargets & nolb & mode & queue & qlen & ftshm & size & buckets & frag & ttl & v16 & EL & F & _ & -> & V).
  destruct (tierOf E lbshm) as [tr|]; [|left; eauto].
  destruct tun as [d|]; [destruct (Z_lt_le_dec (zlen d) 40) as [LD|LD]|].
  - left. apply serve_crash. cbn. intros d' [= <-]. exact LD.
  - right. exists its, tail, d. split; [auto|]. split; [auto|]. split; [|auto]. eapply (V 3); reflexivity.
  - left. apply serve_crash. cbn. discriminate.
Qed.

Lemma flowlb_no_table_frag h shm mem now done eth data : Frag_Model.g_hsize (h_frag h) = 0 -> h_tier h = None -> other_fragment 0 eth data ->
  runp (packet h now done eth data) (w_st (start h shm mem)) = None.
Proof.
  intros Z T (rc & k & fi & EK & R3 & R1). unfold packet. rewrite EK. destruct (Z.land rc 3 =? 0) eqn:E; [lia|]. unfold tier. rewrite T, R1. cbn [Z.eqb].
  unfold otherFragment. apply run_stop. unfold start. cbn [w_st t_ft]. rewrite call_zero by exact Z. reflexivity.
Qed.
Lemma flowlb_zero_size E i s : s = "0"%string \/ s = "many"%string ->
  exists acts g qs ql m r, cmdFlowLb E i [str "--ft_size=" ++ str s] = Ok (acts, Serving g qs ql m r) /\
    forall shm mem now done eth data, other_fragment 0 eth data -> runp (packet g now done eth data) (w_st (start g shm mem)) = None.
Proof.
  intros HS.
  assert (P : exists v1, parseOptions flowlbOpts [str "--ft_size=" ++ str s] = Ok (Parsed
    [None; None; Some (str "1500"); None; Some (str "0"); v1; Some (str "-1"); Some (str "-1"); Some (str "1"); Some (str "2"); Some (str "1024"); Some (str "ftshm");
     Some (str s); Some (str "500"); Some (str "100"); Some (str "200"); Some (str "unix:nfqlb-trace")] [])) by (destruct HS as [->| ->]; eexists; vm_compute; reflexivity).
  destruct P as (v1 & P).
  assert (A : u32 (atoi (str s)) = 0) by (destruct HS as [->| ->]; reflexivity).
  unfold cmdFlowLb. rewrite P. cbn [obind]. unfold tierOf, Start_Model.serve. cbn [m_shm m_mtu m_tun m_frag m_size m_buckets m_ttl m_queue m_qlen m_reasm].
  rewrite A. change (atoi (str "1500")) with 1500. change (1500 <? 576) with false. cbv iota. cbn [obind]. change (queues (str "2")) with (Ok [2]). cbv iota.
  do 6 eexists. split; [reflexivity|]. intros shm mem now done eth data HO. apply flowlb_no_table_frag; [reflexivity|reflexivity|exact HO].
Qed.

Lemma flowlb_packets E i its tail w nolb ping tr :
  Forall (item_ok flowlbOpts) its -> says flowlbOpts its w -> number flowlbOpts its "nolb_fwmark" nolb -> value_of flowlbOpts its "promiscuous_ping" ping ->
  tier_of E w tr -> sensible w -> usable E w ->
  exists acts h qs, cmdFlowLb E i (line its tail) = Ok (acts, Serving h qs (w_qlen w) (w_mtu w) (w_reasm w)) /\
    (forall q, In q qs <-> w_first w <= q <= w_last w) /\
    forall now done eth data fl l4 s L ops ans (R : chars -> rule),
    libc_ok L -> run L [] ops = Ok (t_set s, ans) -> (forall n a, current ops ans n = Some a -> means L a (R n)) ->
    flow_ok fl -> l4_packet eth data (fl_proto fl) (fl_src fl) (fl_dst fl) l4 -> ports_at data l4 (fl_sport fl) (fl_dport fl) ->
    (forall n a, current ops ans n = Some a -> r_match (R n) <> None -> complete_plus data (fl_proto fl) l4) ->
    (fl_proto fl = 17 -> port_num (fl_dport fl) <> 0 /\
       forall n a, current ops ans n = Some a -> accepts_packet (R n) fl data l4 -> a_udpencap a <> port_num (fl_dport fl)) ->
    (forall n a, current ops ans n = Some a -> a_ref a <> 0 -> accepts_packet (R n) fl data l4 ->
       exists o, deref s (a_ref a) = Some o /\ 1 <= lb_ref o < 2147483647 /\ Lb_Spec.table_ok (t_mem s (lb_region o))) ->
    exists v ev, runp (packet h now done eth data) s = Some (Verdict v, s, ev) /\
    ((exists n a o, current ops ans n = Some a /\ a_ref a <> 0 /\ accepts_packet (R n) fl data l4 /\
       (forall n' a', current ops ans n' = Some a' -> a_ref a' <> 0 -> accepts_packet (R n') fl data l4 -> a_priority a' <= a_priority a) /\
       deref s (a_ref a) = Some o /\ v = mark_or (w_notargets w) (table_mark (t_mem s (lb_region o)) (flow_hash (w_mode w) fl))) \/
     v = nolb /\ forall n a, current ops ans n = Some a -> accepts_packet (R n) fl data l4 -> a_ref a = 0).
Proof.
  intros F S N V HT SE US. destruct (flowlb_line E i its tail w nolb ping tr F S N V HT SE US) as (qs & EL & _ & Q).
  eexists; eexists; exists qs. split; [exact EL|]. split; [exact Q|]. intros now done eth data fl l4 s L ops ans R H1 H2 H3 H4 H5 H6 H7 H8 H9.
  pose proof (flowlb_served (mkH (match ping with None => true | Some _ => false end) (w_mode w) (w_notargets w) nolb tr (frag_conf w) (with_tun w) false (e_lib E))
    now done eth data fl l4 s L ops ans R H1 H2 H3 H4 H5 H6 H7 H8 H9) as G. exact G.
Qed.
