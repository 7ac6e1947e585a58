(** What the started load-balancers do with packets, and lines that should
    not be accepted (C75). *)
From Coq Require Import String Lia.
From Verif Require Import Base Lists Cstr_Model IpKey_Model IpKey_Spec Maglev_Model Rangeset_Model Rangeset_Spec Remote_Model Opt_Model Opt_Spec Opt_Proofs Util_Proofs
  Stats_Model Flow_Model FlowLb_Model Lb_Model Lb_Spec Lb3_Proofs Start_Model Start_Spec Start_Proofs.
From Verif Require Frag_Model.

Lemma lb_packets E i its tail w en tn t own tr :
  Forall (item_ok lbOpts) its -> says lbOpts its w -> number lbOpts its "sctp_encap" en -> value_of lbOpts its "tshm" (Some tn) ->
  e_shm E tn = Some (t, own) -> tier_of E w tr -> sensible w -> usable E w -> 0 <= en < 65536 ->
  exists acts g qs, cmdLb E i (line its tail) = Ok (acts, Serving g qs (w_qlen w) (w_mtu w) (w_reasm w)) /\
    (forall q, In q qs <-> w_first w <= q <= w_last w) /\
    forall now done eth data f s, flow_ok f ->
      (flow_packet eth data f /\ (fl_proto f = 17 -> en <> 0 -> port_num (fl_dport f) <> en) \/ en <> 0 /\ encap_packet eth data en f) ->
      Lb_Spec.table_ok (t_mem s t) ->
      runp (lbPacket g now done eth data) s =
        Some (Verdict (mark_or (w_notargets w) (table_mark (t_mem s t) (flow_hash (w_mode w) f))), s, []).
Proof.
  intros F S N V HE HT SE US EN. destruct (lb_line E i its tail w en tn t own tr F S N V HE HT SE US EN) as (qs & EL & _ & Q).
  eexists; eexists; exists qs. split; [exact EL|]. split; [exact Q|]. intros now done eth data f s O P T. rewrite (lb_served _ _ _ _ _ f); auto.
Qed.

(** ** Lines that end the program *)
Lemma lb_small_mtu E i its tail w en tn t own tr :
  Forall (item_ok lbOpts) its -> says lbOpts its w -> number lbOpts its "sctp_encap" en -> value_of lbOpts its "tshm" (Some tn) ->
  e_shm E tn = Some (t, own) -> tier_of E w tr -> (w_mtu w < 576 \/ exists d, w_tun w = Some d /\ zlen d < 40 /\ (e_tun E d = false \/ e_mtu E d < w_mtu w)) ->
  exists acts, cmdLb E i (line its tail) = Ok (acts, Exited).
Proof.
  intros F (S1 & S2 & S3 & S4 & S5 & S6 & S7 & S8 & S9 & S10 & S11 & S12 & S13) (se & Ve & Ne) Vt HT HR US.
  destruct lb_table as [TO RQ]. destruct (line_vals lbOpts its tail TO F RQ) as (vals & P & L & V).
  destruct (vals17 _ vals L) as (v0 & v1 & v2 & v3 & v4 & v5 & v6 & v7 & v8 & v9 & va & vb & vc & vd & ve & vf & vg & ->).
  destruct S1 as (x1 & S1 & N1), S3 as (x3 & S3 & N3), S4 as (x4 & S4 & N4), S5 as (x5 & S5 & N5), S6 as (x6 & S6 & N6), S7 as (x7 & S7 & N7),
    S9 as (x9 & S9 & N9), S10 as (x10 & S10 & N10), S11 as (x11 & S11 & N11), S12 as (x12 & S12 & N12).
  pose proof (V 1 _ _ _ eq_refl eq_refl S1) as G1. pose proof (V 2 _ _ _ eq_refl eq_refl S2) as G2. pose proof (V 3 _ _ _ eq_refl eq_refl S3) as G3.
  pose proof (V 4 _ _ _ eq_refl eq_refl Ve) as G4. pose proof (V 5 _ _ _ eq_refl eq_refl Vt) as G5. pose proof (V 6 _ _ _ eq_refl eq_refl S13) as G6.
  pose proof (V 7 _ _ _ eq_refl eq_refl S4) as G7. pose proof (V 8 _ _ _ eq_refl eq_refl S5) as G8. pose proof (V 9 _ _ _ eq_refl eq_refl S6) as G9.
  pose proof (V 10 _ _ _ eq_refl eq_refl S7) as G10. pose proof (V 11 _ _ _ eq_refl eq_refl S8) as G11. pose proof (V 12 _ _ _ eq_refl eq_refl S9) as G12.
  pose proof (V 13 _ _ _ eq_refl eq_refl S10) as G13. pose proof (V 14 _ _ _ eq_refl eq_refl S11) as G14. pose proof (V 15 _ _ _ eq_refl eq_refl S12) as G15.
  cbn in G1, G2, G3, G4, G5, G6, G7, G8, G9, G10, G11, G12, G13, G14, G15.
  injection G1 as ->. injection G2 as ->. injection G3 as ->. injection G4 as ->. injection G5 as ->. injection G6 as ->. injection G7 as ->. injection G8 as ->.
  injection G9 as ->. injection G10 as ->. injection G11 as ->. injection G12 as ->. injection G13 as ->. injection G14 as ->. injection G15 as ->.
  unfold cmdLb. rewrite P. cbn [obind]. rewrite HT.
  assert (TT : tierOf E (w_tier w) = Some tr).
  { unfold tierOf, tier_of in *. destruct (w_tier w) as [n|]; [destruct HR as (x & -> & ->)|subst tr]; reflexivity. }
  rewrite TT. unfold Start_Model.serve. cbn [m_shm m_mtu m_tun]. rewrite (atoi_num _ _ N1).
  destruct (w_mtu w <? 576) eqn:E1; [eauto|]. destruct US as [US|(d & -> & LD & US)]; [lia|].
  destruct (e_tun E d) eqn:ET; cbn [negb obind]; [|eauto]. destruct US as [US|US]; [discriminate|].
  unfold getMtu. destruct (40 <? zlen d + 1) eqn:E2; [lia|]. cbn [obind]. destruct (e_mtu E d <? w_mtu w) eqn:E3; [|lia]. eauto.
Qed.

(** An option with a default that is not "no" has a value. *)
Lemma value_some opts its i o d v : Opt_Spec.table_ok opts -> Forall (item_ok opts) its -> znth opts i = Some o -> p_var o = true -> p_default o = Some d ->
  d <> str "no" -> has_value opts its i v -> v <> None.
Proof.
  intros T F O PV PD ND [(pre & it & post & -> & G & _)|(_ & o' & O' & ->)] E.
  - apply Forall_app in F. destruct F as [_ F]. apply Forall_inv in F. subst v. destruct it as [two a x|two a x|two a|x]; cbn in G; try (destruct G as [_ G]; discriminate).
    + destruct G as [G _]. cbn in F. destruct F as (_ & j & o2 & D & O2 & FL & _).
      apply (findOpt_denotes opts a i T) in G. apply (findOpt_denotes opts a j T) in D. assert (i = j) by congruence. subst j.
      assert (o2 = o) by congruence. subst o2. destruct FL as [FL|FL]; [congruence|]. rewrite PD in FL. injection FL as FL. contradiction.
    + destruct G.
  - assert (o' = o) by congruence. subst o'. congruence.
Qed.

(** The values of a line that is accepted *)
Lemma lb_vals words vals rest : parseOptions lbOpts words = Ok (Parsed vals rest) ->
  exists its tail v0 mtu tun reasm encap tshm lbshm notargets mode queue qlen ftshm size buckets frag ttl v16,
    words = line its tail /\ Forall (item_ok lbOpts) its /\ rest = rest_words its tail /\
    vals = [v0; Some mtu; tun; Some reasm; Some encap; Some tshm; lbshm; Some notargets; Some mode; Some queue; Some qlen; Some ftshm;
            Some size; Some buckets; Some frag; Some ttl; v16] /\
    (forall i o n v, znth lbOpts i = Some o -> p_name o = str n -> znth vals i = Some v -> value_of lbOpts its n v).
Proof.
  intros P. destruct lb_table as [TO RQ]. destruct (accepted_line lbOpts words vals rest TO P) as (its & tail & EL & F & _ & ER & L & V).
  destruct (vals17 _ vals L) as (v0 & v1 & v2 & v3 & v4 & v5 & v6 & v7 & v8 & v9 & va & vb & vc & vd & ve & vf & vg & ->).
  assert (S : forall j o d v, znth lbOpts j = Some o -> p_var o = true -> p_default o = Some d -> streq d (str "no") = false ->
     znth [v0; v1; v2; v3; v4; v5; v6; v7; v8; v9; va; vb; vc; vd; ve; vf; vg] j = Some v -> exists x, v = Some x).
  { intros j o d v HO H1 H2 H3 HV. destruct v as [x|]; [eauto|]. exfalso.
    eapply (value_some lbOpts its j o d None TO F HO H1 H2); [|apply V; exact HV|reflexivity]. intros ->. rewrite streq_refl in H3. discriminate. }
  destruct (S 1 _ _ v1 eq_refl eq_refl eq_refl eq_refl eq_refl) as (x1 & ->).
  destruct (S 3 _ _ v3 eq_refl eq_refl eq_refl eq_refl eq_refl) as (x3 & ->).
  destruct (S 4 _ _ v4 eq_refl eq_refl eq_refl eq_refl eq_refl) as (x4 & ->).
  destruct (S 5 _ _ v5 eq_refl eq_refl eq_refl eq_refl eq_refl) as (x5 & ->).
  destruct (S 7 _ _ v7 eq_refl eq_refl eq_refl eq_refl eq_refl) as (x7 & ->).
  destruct (S 8 _ _ v8 eq_refl eq_refl eq_refl eq_refl eq_refl) as (x8 & ->).
  destruct (S 9 _ _ v9 eq_refl eq_refl eq_refl eq_refl eq_refl) as (x9 & ->).
  destruct (S 10 _ _ va eq_refl eq_refl eq_refl eq_refl eq_refl) as (xa & ->).
  destruct (S 11 _ _ vb eq_refl eq_refl eq_refl eq_refl eq_refl) as (xb & ->).
  destruct (S 12 _ _ vc eq_refl eq_refl eq_refl eq_refl eq_refl) as (xc & ->).
  destruct (S 13 _ _ vd eq_refl eq_refl eq_refl eq_refl eq_refl) as (xd & ->).
  destruct (S 14 _ _ ve eq_refl eq_refl eq_refl eq_refl eq_refl) as (xe & ->).
  destruct (S 15 _ _ vf eq_refl eq_refl eq_refl eq_refl eq_refl) as (xf & ->).
  exists its, tail. do 17 eexists. split; [exact EL|]. split; [auto|]. split; [auto|]. split; [reflexivity|].
  intros i o n v HO HN HV. exists i, o. auto.
Qed.

(** No table: the program ends before it touches the statistics. *)
Lemma lb_no_table E i its tail tn :
  Forall (item_ok lbOpts) its -> value_of lbOpts its "tshm" (Some tn) -> e_shm E tn = None -> cmdLb E i (line its tail) = Ok ([], Exited).
Proof.
  intros F Vt HT. destruct lb_table as [TO RQ]. destruct (line_vals lbOpts its tail TO F RQ) as (vals & P & L & V).
  destruct (lb_vals _ _ _ P) as (its' & tail' & v0 & mtu & tun & reasm & encap & tshm & lbshm & notargets & mode & queue & qlen & ftshm & size & buckets & frag & ttl & v16 & _ & _ & _ & -> & _).
  pose proof (V 5 _ _ _ eq_refl eq_refl Vt) as G5. cbn in G5. injection G5 as ->. unfold cmdLb. rewrite P. cbn [obind]. rewrite HT. reflexivity.
Qed.

(** Whatever the words, lb does not crash before it serves, unless the name of
    the tun device is too long. *)
Lemma serve_crash A (E : env) i c (mk : Frag_Model.conf -> bool -> A) : (forall d, m_tun c = Some d -> zlen d < 40) ->
  exists acts b, Start_Model.serve E i c mk = Ok (acts, b).
Proof.
  intros H. unfold Start_Model.serve. destruct (_ <? 576); [eauto|]. destruct (m_tun c) as [d|].
  - specialize (H d eq_refl). destruct (negb (e_tun E d)); cbn [obind]; [eauto|]. unfold getMtu. destruct (40 <? zlen d + 1) eqn:E2; [lia|]. cbn [obind].
    destruct (e_mtu E d <? atoi (m_mtu c)); [eauto|]. destruct (queues (m_queue c)); eauto.
  - cbn [obind]. destruct (queues (m_queue c)); eauto.
Qed.
Lemma parse_ok opts words : zlen opts <= 31 -> exists r, parseOptions opts words = Ok r.
Proof. intros H. unfold parseOptions. destruct (32 <=? zlen opts) eqn:E; [lia|eauto]. Qed.
Lemma lb_no_crash E i words : (exists acts b, cmdLb E i words = Ok (acts, b)) \/
  exists its tail d, words = line its tail /\ Forall (item_ok lbOpts) its /\ value_of lbOpts its "tun" (Some d) /\ 40 <= zlen d.
Proof.
  destruct (parse_ok lbOpts words) as (r & P); [cbn; lia|]. unfold cmdLb. rewrite P. cbn [obind]. destruct r as [| |vals rest]; [left; eauto|left; eauto|].
  destruct (lb_vals _ _ _ P) as (its & tail & v0 & mtu & tun & reasm & encap & tshm & lbshm & notargets & mode & queue & qlen & ftshm & size & buckets & frag & ttl & v16 & EL & F & _ & -> & V).
  destruct (e_shm E tshm) as [[t own]|]; [|left; eauto]. destruct (tierOf E lbshm) as [tr|]; [|left; eauto].
  destruct tun as [d|]; [destruct (Z_lt_le_dec (zlen d) 40) as [LD|LD]|].
  - left. apply serve_crash. cbn. intros d' [= <-]. exact LD.
  - right. exists its, tail, d. split; [auto|]. split; [auto|]. split; [|auto]. eapply (V 2); reflexivity.
  - left. apply serve_crash. cbn. discriminate.
Qed.

(** ** Tables of fragments without buckets *)
Lemma store_zero n g now k d done : Frag_Model.g_hsize g = 0 ->
  Frag_Model.finish (S n) g (Frag_Model.fragTableCreate g) Frag_Model.Idle (Frag_Model.mkChoice (Frag_Model.CStore now k d) done false) = UB.
Proof. intros H. destruct g as [hs mb mf mtu ms]. cbn in H. subst hs. reflexivity. Qed.
Lemma call_zero g now k d done : Frag_Model.g_hsize g = 0 ->
  Frag_Model.call_op g (Frag_Model.fragTableCreate g) (Frag_Model.CStore now k d) done = UB.
Proof. intros H. apply (store_zero 11). exact H. Qed.
Lemma run_stop l f s : f s = Stop -> runp (Act l f) s = None.
Proof. intros H. cbn [runp]. rewrite H. reflexivity. Qed.
Lemma no_table_frag g mem now done eth data : Frag_Model.g_hsize (h_frag (l_h g)) = 0 -> h_tier (l_h g) = None -> other_fragment (l_encap g) eth data ->
  runp (lbPacket g now done eth data) (lw_st (lstart g mem)) = None.
Proof.
  intros Z T (rc & k & fi & EK & R3 & R1). unfold lbPacket. rewrite EK. destruct (Z.land rc 3 =? 0) eqn:E; [lia|]. unfold tier. rewrite T, R1. cbn [Z.eqb].
  unfold otherFragment. apply run_stop. unfold lstart. cbn [lw_st t_ft]. rewrite call_zero by exact Z. reflexivity.
Qed.
