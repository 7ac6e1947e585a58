(** From command lines to running load-balancers (C75). *)
From Coq Require Import String Lia.
From Verif Require Import Base Lists Cstr_Model Rangeset_Model Rangeset_Spec Rangeset2_Proofs Match_Proofs Util_Proofs Remote_Model Opt_Model Opt_Spec Opt_Proofs Opt2_Proofs Fwmark_Proofs
  Stats_Model Flow_Model Flow_Proofs FlowLb_Model Lb_Model Start_Model Start_Spec.
From Verif Require Frag_Model.

Lemma atoi_neg d n : is_dec d n -> n <= 2147483648 -> atoi (45 :: d) = - n /\ 0 <= n.
Proof.
  intros (D1 & D2 & D3 & D4) L. assert (V0 : 0 <= n) by (rewrite <- D3; apply fold_dec_nonneg; [exact D2|lia]). split; auto.
  unfold atoi, strtol. cbn [skip]. replace (isspace 45) with false by reflexivity. change (45 =? 45) with true. change (10 =? 0) with false. cbv iota.
  pose proof (digits_all 10 (fun c => c - 48) d 0 0 []) as DA. rewrite app_nil_r in DA. rewrite DA; [|..].
  - rewrite D3. replace (0 + zlen d =? 0) with false by (destruct d; [congruence|]; unfold zlen; cbn [length]; lia). cbn [fst].
    unfold LONG_MAX, LONG_MIN. destruct (9223372036854775807 <? - n) eqn:E1; [lia|]. destruct (- n <? -9223372036854775808) eqn:E2; [lia|].
    unfold s32, u32. destruct (Z.eq_dec n 0) as [->|N]; [reflexivity|].
    assert (M : (- n) mod two32 = two32 - n) by (symmetry; apply (Z.mod_unique_pos _ _ (-1)); unfold two32; lia).
    rewrite M. unfold two32. destruct (4294967296 - n <? 2147483648) eqn:E3; lia.
  - eapply Forall_impl; [|exact D2]. intros x X. exists (x - 48). cbn beta in X. unfold digit. replace ((48 <=? x) && (x <=? 57)) with true by lia.
    split; auto. split; [lia|auto].
  - exact I.
Qed.
Lemma atoi_num s v : is_num s v -> atoi s = v.
Proof.
  intros [R [D|(d & -> & D)]].
  - apply (atoi_dec s v D). lia.
  - destruct (atoi_neg d (- v) D ltac:(lia)) as [A _]. lia.
Qed.
Lemma queues_text s a b : queue_text s a b -> exists l, queues s = Ok l /\ NoDup l /\ forall q, In q l <-> a <= q <= b.
Proof.
  intros [(D & <- & L)|(d & e & -> & D & F & A & B & L)].
  - exists [a]. split; [apply queue_one; auto|]. split; [repeat constructor; intros []|]. cbn. lia.
  - apply queue_range; auto.
Qed.

(** ** The values of a line *)
Lemma line_vals opts its tail : Opt_Spec.table_ok opts -> Forall (item_ok opts) its -> (forall o, In o opts -> p_req o = false) ->
  exists vals, parseOptions opts (line its tail) = Ok (Parsed vals (rest_words its tail)) /\ zlen vals = zlen opts /\
    forall i o n v, znth opts i = Some o -> p_name o = str n -> value_of opts its n v -> znth vals i = Some v.
Proof.
  intros T F R. destruct (line_read opts its tail T F) as (vals & P & L & V).
  { intros i (o & Ho & Rq & _). apply znth_In in Ho. rewrite (R o Ho) in Rq. discriminate. }
  exists vals. split; [auto|]. split; [auto|]. intros i o n v Ho En (j & o' & Hj & Ej & Hv).
  assert (i = j).
  { destruct T as (_ & ND & _). eapply names_unique; eauto. congruence. }
  subst j. destruct (znth vals i) as [x|] eqn:Ex.
  - f_equal. eapply value_unique; eauto.
  - exfalso. apply znth_none_range in Ex. apply znth_some_range in Ho. lia.
Qed.

Lemma lb_table : Opt_Spec.table_ok lbOpts /\ forall o, In o lbOpts -> p_req o = false.
Proof.
  split; [exact (Forall_inv tables_all_ok)|]. intros o H. cbn [lbOpts In] in H. repeat destruct H as [<-|H]; try reflexivity. destruct H.
Qed.
Lemma flowlb_table : Opt_Spec.table_ok flowlbOpts /\ forall o, In o flowlbOpts -> p_req o = false.
Proof.
  split; [exact (Forall_inv (Forall_inv_tail tables_all_ok))|]. intros o H. cbn [flowlbOpts In] in H. repeat destruct H as [<-|H]; try reflexivity. destruct H.
Qed.

(** ** serve *)
Lemma u32_num v : 0 <= v <= 2147483647 -> u32 v = v.
Proof. intros. unfold u32. apply Z.mod_small. unfold two32. lia. Qed.

Lemma serve_ok A (E : env) i w (mk : Frag_Model.conf -> bool -> A) mtu reasm q qlen size buckets frag ttl :
  is_num mtu (w_mtu w) -> is_num reasm (w_reasm w) -> queue_text q (w_first w) (w_last w) -> is_num qlen (w_qlen w) -> is_num size (w_size w) ->
  is_num buckets (w_buckets w) -> is_num frag (w_frag w) -> is_num ttl (w_ttl w) -> sensible w -> usable E w ->
  exists qs, Start_Model.serve E i (mkC mtu (w_tun w) reasm q qlen (w_stats w) size buckets frag ttl) mk =
      Ok (opens i w, Serving (mk (frag_conf w) (with_tun w)) qs (w_qlen w) (w_mtu w) (w_reasm w)) /\
    NoDup qs /\ forall x, In x qs <-> w_first w <= x <= w_last w.
Proof.
  intros N1 N2 Q N3 N4 N5 N6 N7 S [U1 U2]. destruct (queues_text _ _ _ Q) as (qs & EQ & ND & IQ). exists qs. split; [|auto].
  unfold sensible in S. repeat (apply Forall_cons_iff in S; destruct S as [? S]).
  assert (B : forall s v, is_num s v -> 0 <= v -> u32 (atoi s) = v).
  { intros s v N P. rewrite (atoi_num s v N). destruct N as [R _]. apply u32_num. lia. }
  unfold Start_Model.serve. cbn [m_shm m_mtu m_tun m_frag m_size m_buckets m_ttl m_queue m_qlen m_reasm].
  rewrite (atoi_num mtu _ N1), (atoi_num reasm _ N2), (B qlen _ N3), (B size _ N4), (B buckets _ N5), (B ttl _ N7) by auto.
  destruct (w_mtu w <? 576) eqn:E1; [lia|]. unfold opens, frag_conf, with_tun. destruct (w_tun w) as [dev|].
  - destruct U2 as (T1 & T2 & T3). rewrite T1. cbn [negb]. unfold getMtu. destruct (40 <? zlen dev + 1) eqn:E2; [lia|]. cbn [obind].
    destruct (e_mtu E dev <? w_mtu w) eqn:E3; [lia|]. rewrite EQ, (B frag _ N6) by auto. reflexivity.
  - cbn [obind]. rewrite EQ. reflexivity.
Qed.

Lemma vals17 (A : Type) (vals : list A) : zlen vals = 17 ->
  exists v0 v1 v2 v3 v4 v5 v6 v7 v8 v9 va vb vc vd ve vf vg, vals = [v0; v1; v2; v3; v4; v5; v6; v7; v8; v9; va; vb; vc; vd; ve; vf; vg].
Proof.
  intros H. do 17 (destruct vals as [|? vals]; [cbn in H; lia|]). destruct vals; [|unfold zlen in H; cbn [length] in H; lia]. repeat eexists.
Qed.

Lemma lb_line E i its tail w en tn t own tr :
  Forall (item_ok lbOpts) its -> says lbOpts its w -> number lbOpts its "sctp_encap" en -> value_of lbOpts its "tshm" (Some tn) ->
  e_shm E tn = Some (t, own) -> tier_of E w tr -> sensible w -> usable E w -> 0 <= en < 65536 ->
  exists qs, cmdLb E i (line its tail) =
      Ok (opens i w, Serving (mkL (mkH false (w_mode w) (w_notargets w) (-1) tr (frag_conf w) (with_tun w) false (e_lib E)) en t)
                       qs (w_qlen w) (w_mtu w) (w_reasm w)) /\
    NoDup qs /\ forall x, In x qs <-> w_first w <= x <= w_last w.
Proof.
  intros F (S1 & S2 & S3 & S4 & S5 & S6 & S7 & S8 & S9 & S10 & S11 & S12 & S13) (se & Ve & Ne) Vt HT HR SE US EN.
  destruct lb_table as [TO RQ]. destruct (line_vals lbOpts its tail TO F RQ) as (vals & P & L & V).
  destruct (vals17 _ vals L) as (v0 & v1 & v2 & v3 & v4 & v5 & v6 & v7 & v8 & v9 & va & vb & vc & vd & ve & vf & vg & ->).
  destruct S1 as (x1 & S1 & N1), S3 as (x3 & S3 & N3), S4 as (x4 & S4 & N4), S5 as (x5 & S5 & N5), S6 as (x6 & S6 & N6), S7 as (x7 & S7 & N7),
    S9 as (x9 & S9 & N9), S10 as (x10 & S10 & N10), S11 as (x11 & S11 & N11), S12 as (x12 & S12 & N12).
  pose proof (V 1 _ _ _ eq_refl eq_refl S1) as G1. pose proof (V 2 _ _ _ eq_refl eq_refl S2) as G2. pose proof (V 3 _ _ _ eq_refl eq_refl S3) as G3.
  pose proof (V 4 _ _ _ eq_refl eq_refl Ve) as G4. pose proof (V 5 _ _ _ eq_refl eq_refl Vt) as G5. pose proof (V 6 _ _ _ eq_refl eq_refl S13) as G6.
  pose proof (V 7 _ _ _ eq_refl eq_refl S4) as G7. pose proof (V 8 _ _ _ eq_refl eq_refl S5) as G8. pose proof (V 9 _ _ _ eq_refl eq_refl S6) as G9.
  pose proof (V 10 _ _ _ eq_refl eq_refl S7) as G10. pose proof (V 11 _ _ _ eq_refl eq_refl S8) as G11. pose proof (V 12 _ _ _ eq_refl eq_refl S9) as G12.
  pose proof (V 13 _ _ _ eq_refl eq_refl S10) as G13. pose proof (V 14 _ _ _ eq_refl eq_refl S11) as G14. pose proof (V 15 _ _ _ eq_refl eq_refl S12) as G15.
  cbn in G1, G2, G3, G4, G5, G6, G7, G8, G9, G10, G11, G12, G13, G14, G15.
  injection G1 as ->. injection G2 as ->. injection G3 as ->. injection G4 as ->. injection G5 as ->. injection G6 as ->. injection G7 as ->. injection G8 as ->.
  injection G9 as ->. injection G10 as ->. injection G11 as ->. injection G12 as ->. injection G13 as ->. injection G14 as ->. injection G15 as ->.
  unfold cmdLb. rewrite P. cbn [obind]. rewrite HT.
  assert (TT : tierOf E (w_tier w) = Some tr).
  { unfold tierOf, tier_of in *. destruct (w_tier w) as [n|]; [destruct HR as (x & -> & ->)|subst tr]; reflexivity. }
  rewrite TT, (atoi_num se en Ne), (atoi_num x4 _ N4), Z.mod_small by auto.
  replace (u32 (atoi x5)) with (w_mode w).
  2:{ rewrite (atoi_num _ _ N5). destruct N5 as [R _]. apply Forall_inv in SE. symmetry. apply u32_num. lia. }
  apply serve_ok; auto.
Qed.

Lemma flowlb_line E i its tail w nolb ping tr :
  Forall (item_ok flowlbOpts) its -> says flowlbOpts its w -> number flowlbOpts its "nolb_fwmark" nolb -> value_of flowlbOpts its "promiscuous_ping" ping ->
  tier_of E w tr -> sensible w -> usable E w ->
  exists qs, cmdFlowLb E i (line its tail) =
      Ok (opens i w, Serving (mkH (match ping with None => true | Some _ => false end) (w_mode w) (w_notargets w) nolb tr (frag_conf w) (with_tun w) false (e_lib E))
                       qs (w_qlen w) (w_mtu w) (w_reasm w)) /\
    NoDup qs /\ forall x, In x qs <-> w_first w <= x <= w_last w.
Proof.
  intros F (S1 & S2 & S3 & S4 & S5 & S6 & S7 & S8 & S9 & S10 & S11 & S12 & S13) (se & Ve & Ne) Vt HR SE US.
  destruct flowlb_table as [TO RQ]. destruct (line_vals flowlbOpts its tail TO F RQ) as (vals & P & L & V).
  destruct (vals17 _ vals L) as (v0 & v1 & v2 & v3 & v4 & v5 & v6 & v7 & v8 & v9 & va & vb & vc & vd & ve & vf & vg & ->).
  destruct S1 as (x1 & S1 & N1), S3 as (x3 & S3 & N3), S4 as (x4 & S4 & N4), S5 as (x5 & S5 & N5), S6 as (x6 & S6 & N6), S7 as (x7 & S7 & N7),
    S9 as (x9 & S9 & N9), S10 as (x10 & S10 & N10), S11 as (x11 & S11 & N11), S12 as (x12 & S12 & N12).
  pose proof (V 1 _ _ _ eq_refl eq_refl S13) as G1. pose proof (V 2 _ _ _ eq_refl eq_refl S1) as G2. pose proof (V 3 _ _ _ eq_refl eq_refl S2) as G3.
  pose proof (V 4 _ _ _ eq_refl eq_refl S3) as G4. pose proof (V 5 _ _ _ eq_refl eq_refl Vt) as G5. pose proof (V 6 _ _ _ eq_refl eq_refl S4) as G6.
  pose proof (V 7 _ _ _ eq_refl eq_refl Ve) as G7. pose proof (V 8 _ _ _ eq_refl eq_refl S5) as G8. pose proof (V 9 _ _ _ eq_refl eq_refl S6) as G9.
  pose proof (V 10 _ _ _ eq_refl eq_refl S7) as G10. pose proof (V 11 _ _ _ eq_refl eq_refl S8) as G11. pose proof (V 12 _ _ _ eq_refl eq_refl S9) as G12.
  pose proof (V 13 _ _ _ eq_refl eq_refl S10) as G13. pose proof (V 14 _ _ _ eq_refl eq_refl S11) as G14. pose proof (V 15 _ _ _ eq_refl eq_refl S12) as G15.
  cbn in G1, G2, G3, G4, G5, G6, G7, G8, G9, G10, G11, G12, G13, G14, G15.
  injection G1 as ->. injection G2 as ->. injection G3 as ->. injection G4 as ->. injection G5 as ->. injection G6 as ->. injection G7 as ->. injection G8 as ->.
  injection G9 as ->. injection G10 as ->. injection G11 as ->. injection G12 as ->. injection G13 as ->. injection G14 as ->. injection G15 as ->.
  unfold cmdFlowLb. rewrite P. cbn [obind].
  assert (TT : tierOf E (w_tier w) = Some tr).
  { unfold tierOf, tier_of in *. destruct (w_tier w) as [n|]; [destruct HR as (x & -> & ->)|subst tr]; reflexivity. }
  rewrite TT, (atoi_num se nolb Ne), (atoi_num x4 _ N4).
  replace (u32 (atoi x5)) with (w_mode w).
  2:{ rewrite (atoi_num _ _ N5). destruct N5 as [R _]. apply Forall_inv in SE. symmetry. apply u32_num. lia. }
  apply serve_ok; auto.
Qed.
