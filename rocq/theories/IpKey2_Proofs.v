(** More proofs about the hash key: C11, C14-C18, C59. *)
From Verif Require Import Base Lists IpKey_Model IpKey_Spec IpKey_Proofs.

(** ** djb2 *)
Lemma djb2_range : forall l h, 0 <= h < two32 -> 0 <= fold_left (fun h c => u32 (u32 (h * 32) + h + c)) l h < two32.
Proof.
  induction l as [|c l IH]; intros h H; cbn [fold_left]; [assumption|].
  apply IH. unfold u32. apply Z.mod_pos_bound. reflexivity.
Qed.

Lemma step_eq : forall h c, u32 (u32 (h * 32) + h + c) = u32 (33 * h + c).
Proof.
  intros h c. unfold u32. replace ((h * 32) mod two32 + h + c) with ((h * 32) mod two32 + (h + c)) by lia.
  rewrite Z.add_mod_idemp_l by discriminate. f_equal. lia.
Qed.

Lemma step_inj : forall h1 h2 c, 0 <= h1 < two32 -> 0 <= h2 < two32 ->
  u32 (33 * h1 + c) = u32 (33 * h2 + c) -> h1 = h2.
Proof.
  intros h1 h2 c H1 H2 H. unfold u32 in H.
  assert (Hd : (33 * (h1 - h2)) mod two32 = 0).
  { replace (33 * (h1 - h2)) with ((33 * h1 + c) - (33 * h2 + c)) by lia.
    rewrite Zminus_mod, H, Z.sub_diag. reflexivity. }
  assert (Hi : (1041204193 * (33 * (h1 - h2))) mod two32 = 0).
  { rewrite Z.mul_mod, Hd by discriminate. rewrite Z.mul_0_r. reflexivity. }
  replace (1041204193 * (33 * (h1 - h2))) with ((h1 - h2) + (8 * (h1 - h2)) * two32) in Hi by (unfold two32; lia).
  rewrite Z.mod_add in Hi by discriminate.
  destruct (Z.eq_dec h1 h2) as [|Hne]; [assumption|exfalso].
  apply Z.mod_divide in Hi; [|discriminate]. destruct Hi as [q Hq]. unfold two32 in *.
  assert (q = 0) by lia. lia.
Qed.

Lemma fold_inj : forall l h1 h2, 0 <= h1 < two32 -> 0 <= h2 < two32 ->
  fold_left (fun h c => u32 (u32 (h * 32) + h + c)) l h1 = fold_left (fun h c => u32 (u32 (h * 32) + h + c)) l h2 -> h1 = h2.
Proof.
  induction l as [|c l IH]; intros h1 h2 H1 H2 H; cbn [fold_left] in H; [assumption|].
  apply IH in H; [|unfold u32; apply Z.mod_pos_bound; reflexivity..].
  rewrite !step_eq in H. eapply step_inj; eauto.
Qed.

Lemma djb2_one_byte : forall a x y b, 0 <= x < 256 -> 0 <= y < 256 -> x <> y ->
  djb2 (a ++ x :: b) <> djb2 (a ++ y :: b).
Proof.
  intros a x y b Hx Hy Hne H. unfold djb2 in H. rewrite !fold_left_app in H. cbn [fold_left] in H.
  apply fold_inj in H; [|unfold u32; apply Z.mod_pos_bound; reflexivity..].
  rewrite !step_eq in H.
  set (h := fold_left (fun h c => u32 (u32 (h * 32) + h + c)) a 5381) in *. clearbody h. unfold u32 in H.
  assert (Hd : ((x - y)) mod two32 = 0).
  { replace (x - y) with ((33 * h + x) - (33 * h + y)) by lia. rewrite Zminus_mod, H, Z.sub_diag. reflexivity. }
  apply Z.mod_divide in Hd; [|discriminate]. destruct Hd as [q Hq]. unfold two32 in *. assert (q = 0) by lia. lia.
Qed.

Lemma lb_tier_one_byte : forall k k' a x y b,
  k_src k ++ k_dst k = a ++ x :: b -> k_src k' ++ k_dst k' = a ++ y :: b ->
  0 <= x < 256 -> 0 <= y < 256 -> x <> y ->
  hashKeyAddresses k <> hashKeyAddresses k'.
Proof. intros k k' a x y b H1 H2 Hx Hy Hn. unfold hashKeyAddresses. rewrite H1, H2. apply djb2_one_byte; auto. Qed.

(** ** C11 *)
Lemma sctp_ports_only : forall f g, fl_proto f = 132 -> fl_proto g = 132 ->
  fl_sport f = fl_sport g -> fl_dport f = fl_dport g ->
  hashKey (mk_flow_key f) 1 = hashKey (mk_flow_key g) 1.
Proof.
  intros f g Pf Pg E1 E2. unfold hashKey, mk_flow_key. cbn [k_id k_src k_dst app nth].
  rewrite Pf, Pg, E1, E2. reflexivity.
Qed.

Lemma sctp_hash : forall f, fl_proto f = 132 -> hashKey (mk_flow_key f) 1 = djb2 (fl_sport f ++ fl_dport f).
Proof. intros f Pf. unfold hashKey, mk_flow_key. cbn [k_id k_src k_dst app nth skipn]. rewrite Pf. reflexivity. Qed.

Lemma other_hash : forall f m, 0 <= fl_proto f < 256 -> fl_proto f <> 132 \/ m <> 1 ->
  hashKey (mk_flow_key f) m = djb2 (flow_key f).
Proof.
  intros f m Hp H. unfold hashKey, mk_flow_key. cbn [k_id k_src k_dst app nth].
  destruct ((fl_proto f + 256 * 0 =? 132) && (m =? 1)) eqn:E; [lia|]. reflexivity.
Qed.

Lemma sctp_packets : forall fuel enc1 enc2 eth1 eth2 d1 d2 f1 f2 r1 r2 k1 k2 i1 i2,
  flow_ok f1 -> flow_ok f2 -> fl_proto f1 = 132 -> fl_proto f2 = 132 ->
  fl_sport f1 = fl_sport f2 -> fl_dport f1 = fl_dport f2 ->
  (flow_packet eth1 d1 f1 \/ enc1 <> 0 /\ encap_packet eth1 d1 enc1 f1) ->
  (flow_packet eth2 d2 f2 \/ enc2 <> 0 /\ encap_packet eth2 d2 enc2 f2) ->
  getHashKey (S fuel) enc1 eth1 d1 = Ok (Some (r1, k1, i1)) ->
  getHashKey (S fuel) enc2 eth2 d2 = Ok (Some (r2, k2, i2)) ->
  hashKey k1 1 = hashKey k2 1.
Proof.
  intros fuel enc1 enc2 eth1 eth2 d1 d2 f1 f2 r1 r2 k1 k2 i1 i2 O1 O2 P1 P2 E1 E2 H1 H2 G1 G2.
  assert (K : forall enc eth d f r k i, flow_ok f -> fl_proto f = 132 ->
    (flow_packet eth d f \/ enc <> 0 /\ encap_packet eth d enc f) ->
    getHashKey (S fuel) enc eth d = Ok (Some (r, k, i)) -> k = mk_flow_key f).
  { intros enc eth d f r k i O P H G. destruct H as [H|[Hne H]].
    - rewrite (plain_key fuel enc eth d f O H) in G by lia. congruence.
    - rewrite (encap_key fuel enc eth d f O Hne H) in G. congruence. }
  rewrite (K _ _ _ _ _ _ _ O1 P1 H1 G1), (K _ _ _ _ _ _ _ O2 P2 H2 G2). apply sctp_ports_only; auto.
Qed.

(** ** C14 *)
Lemma ports_tail_inv : forall swap data k udpencap rc proto ports fragid r k' f',
  ports_tail swap data k udpencap rc proto ports fragid = Ok (Some (r, k', f')) ->
  k_src k' = k_src k /\ k_dst k' = k_dst k /\ f' = fragid /\ (r = rc \/ r = rc + 4).
Proof.
  intros swap data k udpencap rc proto ports fragid r k' f' H. unfold ports_tail in H.
  destruct (negb (in_bounds ports 4 (zlen data))); [discriminate|].
  match type of H with obind ?e _ = _ => destruct e as [enc| | |]; try discriminate end. cbn [obind] in H.
  destruct (enc && negb (in_bounds (ports + 8) 4 (zlen data))); [discriminate|].
  destruct (rdn data (if enc then ports + 8 else ports) 2) as [p0| | |]; try discriminate. cbn [obind] in H.
  destruct (rdn data ((if enc then ports + 8 else ports) + 2) 2) as [p1| | |]; try discriminate. cbn [obind] in H.
  injection H as <- <- <-. destruct enc, swap; cbn; auto.
Qed.

Lemma ipv4_nonfirst : forall fuel enc data src dst id, ipv4_fragment data false src dst id ->
  getHashKey fuel enc ETH_IP data = Ok (Some (2, mkKey (mapped src) (mapped dst) (id_bytes id), None)).
Proof.
  intros fuel enc data src dst id [Lid [Hlen [hl [proto [mf [fo [Hh [Hf [Hid Hfo]]]]]]]]].
  unfold getHashKey. change (ETH_IP =? 2048) with true. cbv beta iota.
  rewrite (getHashKeyIpv4_header _ _ _ _ _ _ _ _ _ _ Hh Hf Hid Lid Hlen).
  destruct (fo =? 0) eqn:E; [lia|]. reflexivity.
Qed.

Lemma ipv4_first : forall fuel enc data src dst id r k fi, ipv4_fragment data true src dst id ->
  getHashKey fuel enc ETH_IP data = Ok (Some (r, k, fi)) ->
  Z.odd r = true /\ fi = Some (id_bytes id) /\ k_src k = mapped src /\ k_dst k = mapped dst.
Proof.
  intros fuel enc data src dst id r k fi [Lid [Hlen [hl [proto [mf [fo [Hh [Hf [Hid [-> ->]]]]]]]]]] H.
  unfold getHashKey in H. change (ETH_IP =? 2048) with true in H. cbv beta iota in H.
  rewrite (getHashKeyIpv4_header _ _ _ _ _ _ _ _ _ _ Hh Hf Hid Lid Hlen) in H.
  change (0 =? 0) with true in H. cbv beta iota in H. unfold ipv4_rest in H.
  destruct (proto =? 1).
  - destruct (aget data hl) as [t| | |]; try discriminate. cbn [obind] in H. destruct (icmp4_error t); [discriminate|].
    destruct (t =? 8).
    + destruct (rdn data (hl + 4) 2) as [i| | |]; try discriminate. cbn [obind] in H.
      injection H as <- <- <-. auto.
    + cbn [obind] in H. injection H as <- <- <-. auto.
  - destruct (negb (is_l4 proto)).
    + injection H as <- <- <-. auto.
    + apply ports_tail_inv in H. destruct H as [-> [-> [-> Hr]]]. destruct Hr as [->| ->]; auto.
Qed.

Lemma ipv4_fragments : forall fuel enc src dst id d1 d2 r k fi,
  ipv4_fragment d1 true src dst id -> ipv4_fragment d2 false src dst id ->
  getHashKey fuel enc ETH_IP d1 = Ok (Some (r, k, fi)) ->
  exists k2 fid, getHashKey fuel enc ETH_IP d2 = Ok (Some (2, k2, None)) /\ fi = Some fid /\ Z.odd r = true /\
    key_bytes k2 = frag_table_key (mapped src) (mapped dst) id /\
    with_id k fid = k2 /\ hashKeyAddresses k = hashKeyAddresses k2.
Proof.
  intros fuel enc src dst id d1 d2 r k fi H1 H2 G.
  destruct (ipv4_first _ _ _ _ _ _ _ _ _ H1 G) as [R1 [R2 [R3 R4]]].
  exists (mkKey (mapped src) (mapped dst) (id_bytes id)), (id_bytes id).
  split; [apply ipv4_nonfirst; assumption|]. split; [assumption|]. split; [assumption|].
  split; [reflexivity|]. unfold with_id, hashKeyAddresses. rewrite R3, R4. auto.
Qed.

Lemma ipv6_off_zero : forall data hi lo, at_ data 42 [hi; lo] -> 0 <= hi < 256 -> 0 <= lo < 256 ->
  (Z.land (hi + 256 * lo) 63743 =? 0) = (256 * hi + lo <? 8).
Proof.
  intros data hi lo _ Hh Hl.
  assert (H : Z.land (hi + 256 * lo) 63743 = hi + 256 * (8 * (lo / 8))).
  { apply Z.bits_inj'. intros n Hn. rewrite Z.land_spec.
    assert (Hhb : forall m, 8 <= m -> Z.testbit hi m = false).
    { intros m Hm. destruct (Z.eq_dec hi 0) as [->|]; [apply Z.bits_0|]. apply Z.bits_above_log2; [lia|].
      assert (Z.log2 hi < 8) by (apply Z.log2_lt_pow2; lia). lia. }
    assert (Hlb : forall m, 8 <= m -> Z.testbit lo m = false).
    { intros m Hm. destruct (Z.eq_dec lo 0) as [->|]; [apply Z.bits_0|]. apply Z.bits_above_log2; [lia|].
      assert (Z.log2 lo < 8) by (apply Z.log2_lt_pow2; lia). lia. }
    assert (Hsum : forall y m, 0 <= m -> Z.testbit (hi + 256 * y) m = if m <? 8 then Z.testbit hi m else Z.testbit y (m - 8)).
    { intros y m Hm. replace (hi + 256 * y) with (hi + y * 2 ^ 8) by lia.
      destruct (m <? 8) eqn:E.
      - rewrite <- (Z.mod_pow2_bits_low _ 8 m) by lia.
        rewrite Z.mod_add by lia. rewrite Z.mod_small by lia. reflexivity.
      - replace m with (m - 8 + 8) at 1 by lia. rewrite <- Z.div_pow2_bits by lia.
        rewrite Z.div_add by lia. rewrite Z.div_small by lia. reflexivity. }
    rewrite !Hsum by assumption. change 63743 with (255 + 256 * 248).
    assert (H255 : forall y m, 0 <= m -> Z.testbit (255 + 256 * y) m = if m <? 8 then true else Z.testbit y (m - 8)).
    { intros y m Hm. replace (255 + 256 * y) with (255 + y * 2 ^ 8) by lia.
      destruct (m <? 8) eqn:E.
      - rewrite <- (Z.mod_pow2_bits_low _ 8 m) by lia. rewrite Z.mod_add by lia. rewrite Z.mod_small by lia.
        change 255 with (Z.ones 8). apply Z.ones_spec_low. lia.
      - replace m with (m - 8 + 8) at 1 by lia. rewrite <- Z.div_pow2_bits by lia.
        rewrite Z.div_add by lia. rewrite Z.div_small by lia. reflexivity. }
    rewrite H255 by assumption. destruct (n <? 8) eqn:E; [apply andb_true_r|].
    set (m := n - 8). assert (Hm : 0 <= m) by (unfold m; lia). clearbody m.
    replace (8 * (lo / 8)) with (lo / 2 ^ 3 * 2 ^ 3) by (change (2 ^ 3) with 8; lia).
    destruct (Z_lt_dec m 3) as [Hs|Hs].
    - rewrite Z.mul_pow2_bits_low by lia.
      assert (Hz : Z.testbit 248 m = false).
      { assert (Hc : m = 0 \/ m = 1 \/ m = 2) by lia. destruct Hc as [->|[->| ->]]; reflexivity. }
      rewrite Hz. apply andb_false_r.
    - rewrite Z.mul_pow2_bits by lia. rewrite Z.div_pow2_bits by lia. replace (m - 3 + 3) with m by lia.
      destruct (Z_lt_dec m 8) as [Hs2|Hs2].
      + assert (Hz : Z.testbit 248 m = true).
        { assert (Hc : m = 3 \/ m = 4 \/ m = 5 \/ m = 6 \/ m = 7) by lia.
          destruct Hc as [->|[->|[->|[->| ->]]]]; reflexivity. }
        rewrite Hz. apply andb_true_r.
      + rewrite Hlb by lia. reflexivity. }
  rewrite H. pose proof (Z.div_mod lo 8 ltac:(lia)). pose proof (Z.mod_pos_bound lo 8 ltac:(lia)).
  assert (0 <= lo / 8) by (apply Z.div_pos; lia).
  destruct (256 * hi + lo <? 8) eqn:E; lia.
Qed.

Lemma ipv6_frag_head : forall fuel enc data first src dst id nxt, ipv6_fragment data first src dst id nxt ->
  getHashKey (S fuel) enc ETH_IPV6 data =
  if first then
    do r2 <- first_frag_loop fuel data nxt 40;
    let '(h, o) := r2 in ipv6_upper (S fuel) key0 enc data src dst h o 1 (Some (id_bytes id))
  else Ok (Some (2, mkKey src dst (id_bytes id), None)).
Proof.
  intros fuel enc data first src dst id nxt [Lid [[L1 [L2 [A1 [A2 A3]]]] [A4 [A5 [hi [lo [A6 [Hhi [Hlo Hof]]]]]]]]].
  unfold getHashKey. change (ETH_IPV6 =? 2048) with false. change (ETH_IPV6 =? 34525) with true. cbv beta iota.
  unfold getHashKeyIpv6, in_bounds. pose proof (at_len _ _ _ A5) as [_ Hl]. unfold zlen in Hl at 1. rewrite Lid in Hl.
  destruct (0 + 40 <? zlen data) eqn:E; [|lia]. cbn [negb].
  change (0 + 6) with 6 in A1. change (0 + 8) with 8 in A2. change (0 + 24) with 24 in A3.
  rewrite (at_aget _ _ _ A1). cbn [obind]. rewrite (rdn_at_n _ _ 16 _ A2 L1), (rdn_at_n _ _ 16 _ A3 L2). cbn [obind].
  cbn [ext_loop]. change (is_ext 44) with true. cbn [negb]. change (true && (44 =? 44)) with true. cbv beta iota. cbn [obind].
  change (44 =? 44) with true. cbv beta iota. change (40 + 2) with 42. change (40 + 4) with 44.
  rewrite (rdn_at_n _ _ 2 _ A6 eq_refl), (rdn_at_n _ _ 4 _ A5 Lid). cbn [obind nth].
  rewrite (ipv6_off_zero data hi lo A6 Hhi Hlo).
  assert (B : aget data 40 = Ok nxt /\ aget data 41 = Ok 0).
  { destruct A4 as [B1 [B2 B3]]. change (zlen [nxt; 0]) with 2 in B2. change (Z.to_nat 40) with 40%nat in B3.
    cbn [length] in B3.
    assert (G : forall n (d : list Z) x y, firstn 2 (skipn n d) = [x; y] -> nth_error d n = Some x /\ nth_error d (S n) = Some y).
    { induction n as [|n IH]; intros d x y Hd; destruct d as [|a d]; cbn in Hd; try discriminate.
      - destruct d; try discriminate. injection Hd as -> ->. auto.
      - apply IH in Hd. exact Hd. }
    apply G in B3. destruct B3 as [B3 B4]. split; apply aget_ok; unfold znth; cbn; assumption. }
  destruct B as [B1 B2].
  destruct first.
  - destruct (256 * hi + lo <? 8) eqn:E2; [|lia]. cbn [first_frag_loop].
    change (is_ext 44) with true. cbn [negb]. rewrite B1. change (40 + 1) with 41. rewrite B2. cbn [obind].
    change (40 + 0 * 8) with 40. reflexivity.
  - destruct (256 * hi + lo <? 8) eqn:E2; [lia|]. reflexivity.
Qed.

Lemma ipv6_first : forall fuel enc data src dst id nxt r k fi, ipv6_fragment data true src dst id nxt ->
  getHashKey (S fuel) enc ETH_IPV6 data = Ok (Some (r, k, fi)) ->
  Z.odd r = true /\ fi = Some (id_bytes id) /\ k_src k = src /\ k_dst k = dst.
Proof.
  intros fuel enc data src dst id nxt r k fi Hf H. rewrite (ipv6_frag_head _ _ _ _ _ _ _ _ Hf) in H. cbv beta iota in H.
  destruct (first_frag_loop fuel data nxt 40) as [[h o]| | |]; try discriminate. cbn [obind] in H.
  unfold ipv6_upper in H. destruct (h =? 58).
  - destruct (aget data o) as [t| | |]; try discriminate. cbn [obind] in H. destruct (icmp6_error t); [discriminate|].
    destruct (t =? 128).
    + destruct (rdn data (o + 4) 2) as [i| | |]; try discriminate. cbn [obind] in H. injection H as <- <- <-. auto.
    + cbn [obind] in H. injection H as <- <- <-. auto.
  - destruct (negb (is_l4 h)).
    + injection H as <- <- <-. auto.
    + apply ports_tail_inv in H. destruct H as [-> [-> [-> Hr]]]. destruct Hr as [->| ->]; auto.
Qed.

Lemma ipv6_fragments : forall fuel enc src dst id d1 d2 n1 n2 r k fi,
  ipv6_fragment d1 true src dst id n1 -> ipv6_fragment d2 false src dst id n2 ->
  getHashKey (S fuel) enc ETH_IPV6 d1 = Ok (Some (r, k, fi)) ->
  exists k2 fid, getHashKey (S fuel) enc ETH_IPV6 d2 = Ok (Some (2, k2, None)) /\ fi = Some fid /\ Z.odd r = true /\
    key_bytes k2 = frag_table_key src dst id /\
    with_id k fid = k2 /\ hashKeyAddresses k = hashKeyAddresses k2.
Proof.
  intros fuel enc src dst id d1 d2 n1 n2 r k fi H1 H2 G.
  destruct (ipv6_first _ _ _ _ _ _ _ _ _ _ H1 G) as [R1 [R2 [R3 R4]]].
  exists (mkKey src dst (id_bytes id)), (id_bytes id).
  split; [rewrite (ipv6_frag_head _ _ _ _ _ _ _ _ H2); reflexivity|]. split; [assumption|]. split; [assumption|].
  split; [reflexivity|]. unfold with_id, hashKeyAddresses. rewrite R3, R4. auto.
Qed.

Lemma app_inj_len : forall (a b c d : list Z), length a = length b -> a ++ c = b ++ d -> a = b /\ c = d.
Proof.
  induction a as [|x a IH]; intros [|y b] c d Hl He; try discriminate; [auto|].
  cbn in He. injection He as -> He. injection Hl as Hl. destruct (IH _ _ _ Hl He) as [-> ->]. auto.
Qed.

Lemma frag_key_inj : forall s1 d1 i1 s2 d2 i2, length s1 = length s2 -> length d1 = length d2 -> length i1 = length i2 ->
  frag_table_key s1 d1 i1 = frag_table_key s2 d2 i2 -> s1 = s2 /\ d1 = d2 /\ i1 = i2.
Proof.
  intros s1 d1 i1 s2 d2 i2 L1 L2 L3 H. unfold frag_table_key in H.
  apply app_inj_len in H; [|assumption]. destruct H as [-> H].
  apply app_inj_len in H; [|assumption]. destruct H as [-> H].
  apply app_inj_len in H; [|assumption]. destruct H as [-> _]. auto.
Qed.

(** ** C59: IPv4 first fragment of a flow *)
Lemma ipv4_first_key : forall fuel enc data f s4 d4 l4, flow_ok f ->
  fl_src f = mapped s4 -> fl_dst f = mapped d4 ->
  ipv4_header data 0 l4 (fl_proto f) s4 d4 -> ipv4_frag data 0 true 0 ->
  ports_at data l4 (fl_sport f) (fl_dport f) ->
  (fl_proto f = 17 -> enc <> 0 -> port_num (fl_dport f) <> enc) ->
  exists fi, getHashKey fuel enc ETH_IP data = Ok (Some (1, mk_flow_key f, fi)).
Proof.
  intros fuel enc data f s4 d4 l4 [_ [_ [Hp _]]] Es Ed Hh Hf H2 Henc.
  destruct (is_l4_l4p _ Hp) as [P1 [P2 _]]. pose proof H2 as [L1 [L2 [_ [_ Hlen]]]].
  assert (Hl : 20 <= l4) by (destruct Hh as [_ [_ [_ [Hl _]]]]; lia).
  destruct (at_exists data 4 2) as [id [I1 I2]]; [lia|lia|].
  unfold getHashKey. change (ETH_IP =? 2048) with true. cbv beta iota.
  rewrite (getHashKeyIpv4_header _ _ _ _ _ _ _ _ _ _ Hh Hf I1 I2) by lia.
  change (0 =? 0) with true. cbv beta iota. unfold ipv4_rest. rewrite P2, P1. cbn [negb].
  rewrite (ports_tail_plain false _ _ _ _ _ _ _ _ _ H2 Henc). cbv beta iota.
  rewrite set_all by assumption. unfold mk_flow_key. rewrite Es, Ed. eexists. reflexivity.
Qed.

(** IPv6 first fragment of a TCP/UDP/SCTP packet: the key gets the first bytes of the
    fragment header instead of the ports. *)
Lemma ipv6_first_key : forall fuel data src dst id nxt hi lo, ipv6_fragment data true src dst id nxt -> l4p nxt ->
  at_ data 42 [hi; lo] ->
  exists fi, getHashKey (S (S fuel)) 0 ETH_IPV6 data =
    Ok (Some (1, mk_flow_key (mkFlow src dst nxt [nxt; 0] [hi; lo]), fi)).
Proof.
  intros fuel data src dst id nxt hi lo Hf Hp Ho. rewrite (ipv6_frag_head _ _ _ _ _ _ _ _ Hf). cbv beta iota.
  destruct (is_l4_l4p _ Hp) as [P1 [P2 [P3 P4]]]. cbn [first_frag_loop]. rewrite P4. cbn [negb obind].
  unfold ipv6_upper. rewrite P3, P1. cbn [negb].
  destruct Hf as [Lid [_ [A4 [A5 _]]]]. pose proof (at_len _ _ _ A5) as [_ Hl]. unfold zlen in Hl at 1. rewrite Lid in Hl.
  assert (Hpa : ports_at data 40 [nxt; 0] [hi; lo]).
  { split; [reflexivity|]. split; [reflexivity|]. split; [assumption|]. split; [assumption|]. lia. }
  rewrite (ports_tail_plain false _ _ _ _ _ _ _ _ _ Hpa) by lia. cbv beta iota.
  rewrite set_all by reflexivity. eexists. reflexivity.
Qed.

(** ** C15, C16: safety and termination *)
Lemma rdn_ok : forall data off n, 0 <= off -> off + Z.of_nat n <= zlen data -> exists l, rdn data off n = Ok l.
Proof. intros. rewrite rdn_range by assumption. eauto. Qed.

Lemma aget_rng : forall (data : list Z) i, 0 <= i < zlen data -> exists v, aget data i = Ok v.
Proof. intros data i H. destruct (znth_in_range _ data i H) as [v Hv]. exists v. apply aget_ok. assumption. Qed.

Definition good {A} (o : outcome A) : Prop := exists a, o = Ok a.

Lemma ports_tail_good : forall swap data k enc rc p ports fi, 0 <= ports ->
  good (ports_tail swap data k enc rc p ports fi).
Proof.
  intros swap data k enc rc p ports fi Hp. unfold ports_tail, in_bounds.
  destruct (ports + 4 <? zlen data) eqn:E; cbn [negb]; [|eexists; reflexivity].
  assert (He : good (if negb (enc =? 0) && (p =? 17)
     then do p0 <- rdn data (if swap then ports else ports + 2) 2; Ok (be16 p0 =? enc) else Ok false)).
  { destruct (negb (enc =? 0) && (p =? 17)); [|eexists; reflexivity].
    destruct (rdn_ok data (if swap then ports else ports + 2) 2) as [l Hl]; [destruct swap; lia|destruct swap; lia|].
    rewrite Hl. eexists. reflexivity. }
  destruct He as [b He]. rewrite He. cbn [obind].
  destruct b; cbn [andb].
  - destruct (ports + 8 + 4 <? zlen data) eqn:E2; cbn [negb]; [|eexists; reflexivity].
    destruct (rdn_ok data (ports + 8) 2) as [l1 H1]; [lia|lia|]. rewrite H1. cbn [obind].
    destruct (rdn_ok data (ports + 8 + 2) 2) as [l2 H2]; [lia|lia|]. rewrite H2. eexists. reflexivity.
  - destruct (rdn_ok data ports 2) as [l1 H1]; [lia|lia|]. rewrite H1. cbn [obind].
    destruct (rdn_ok data (ports + 2) 2) as [l2 H2]; [lia|lia|]. rewrite H2. eexists. reflexivity.
Qed.

Lemma inner4_good : forall k enc ihdr data, 0 <= ihdr -> good (getInnerHashKeyIpv4 k enc ihdr data).
Proof.
  intros k enc ihdr data H. unfold getInnerHashKeyIpv4, in_bounds.
  destruct (ihdr + 8 + 20 <? zlen data) eqn:E; cbn [negb]; [|eexists; reflexivity].
  destruct (aget_rng data (ihdr + 8)) as [b0 Hb]; [lia|]. rewrite Hb. cbn [obind].
  destruct (b0 mod 16 <? 5); [eexists; reflexivity|].
  destruct (rdn_ok data (ihdr + 8 + 16) 4) as [l1 H1]; [lia|lia|]. rewrite H1. cbn [obind].
  destruct (rdn_ok data (ihdr + 8 + 12) 4) as [l2 H2]; [lia|lia|]. rewrite H2. cbn [obind].
  destruct (aget_rng data (ihdr + 8 + 9)) as [p Hp]; [lia|]. rewrite Hp. cbn [obind].
  destruct (is_l4 p); cbn [negb]; [|eexists; reflexivity].
  apply ports_tail_good. pose proof (Z.mod_pos_bound b0 16 ltac:(lia)). lia.
Qed.

(** IPv4: all reads inside, provided an ICMP header is complete. *)
Lemma ipv4_good : forall fuel enc data,
  (forall b0, znth data 0 = Some b0 -> znth data 9 = Some 1 -> 4 * (b0 mod 16) + 8 <= zlen data) ->
  good (getHashKey fuel enc ETH_IP data).
Proof.
  intros fuel enc data Hc. unfold getHashKey. change (ETH_IP =? 2048) with true. cbv beta iota.
  unfold getHashKeyIpv4, in_bounds. destruct (0 + 20 <? zlen data) eqn:E; cbn [negb]; [|eexists; reflexivity].
  destruct (aget_rng data 0) as [b0 Hb]; [lia|]. rewrite Hb. cbn [obind].
  destruct (b0 mod 16 <? 5); [eexists; reflexivity|].
  destruct (rdn_ok data 6 2) as [l1 H1]; [lia|lia|]. rewrite H1. cbn [obind].
  destruct (rdn_ok data 12 4) as [l2 H2]; [lia|lia|]. rewrite H2. cbn [obind].
  destruct (rdn_ok data 16 4) as [l3 H3]; [lia|lia|]. rewrite H3. cbn [obind].
  destruct (rdn_ok data 4 2) as [l4 H4]; [lia|lia|]. rewrite H4. cbn [obind].
  destruct (aget_rng data 9) as [p Hp]; [lia|]. rewrite Hp. cbn [obind].
  pose proof (Z.mod_pos_bound b0 16 ltac:(lia)).
  destruct (negb (Z.land (be16 l1) 16383 =? 0) && negb (Z.land (be16 l1) 8191 =? 0)); [eexists; reflexivity|].
  destruct (p =? 1) eqn:Ep.
  - assert (p = 1) by lia. subst p. apply aget_ok in Hb. apply aget_ok in Hp.
    specialize (Hc b0 Hb Hp). destruct (aget_rng data (4 * (b0 mod 16))) as [t Ht]; [lia|]. rewrite Ht. cbn [obind].
    destruct (icmp4_error t).
    + destruct (negb (Z.land (be16 l1) 16383 =? 0)); [eexists; reflexivity|]. apply inner4_good. lia.
    + destruct (t =? 8).
      * destruct (rdn_ok data (4 * (b0 mod 16) + 4) 2) as [i Hi]; [lia|lia|]. rewrite Hi. eexists. reflexivity.
      * eexists. reflexivity.
  - destruct (is_l4 p); cbn [negb]; [|eexists; reflexivity]. apply ports_tail_good. lia.
Qed.

Lemma ext_loop_cases : forall data, Forall (fun b => 0 <= b < 256) data ->
  forall fuel h o, 0 <= o -> zlen data - o < Z.of_nat fuel -> (0 < fuel)%nat ->
  forall stop,
  ext_loop fuel stop data h o = Ok None \/
  (exists h' o', ext_loop fuel stop data h o = Ok (Some (h', o')) /\ 0 <= o' /\ (stop = true -> walk data h o h' o')).
Proof.
  intros data Hb. induction fuel as [|f IH]; intros h o Ho Hf Hpos stop; [lia|]. cbn [ext_loop].
  destruct (is_ext h) eqn:Eh; cbn [negb].
  - destruct (stop && (h =? 44)) eqn:Es.
    + right. exists h, o. split; [reflexivity|]. split; [assumption|]. intros _. apply walk_end. right. lia.
    + unfold in_bounds. destruct (o + 2 <? zlen data) eqn:E; cbn [negb]; [|left; reflexivity].
      destruct (aget_rng data o) as [n Hn]; [lia|]. destruct (aget_rng data (o + 1)) as [l Hl]; [lia|].
      rewrite Hn, Hl. cbn [obind]. destruct (l =? 0) eqn:El; [left; reflexivity|].
      assert (Hlr : 0 <= l < 256).
      { apply aget_ok in Hl. apply znth_In in Hl. rewrite Forall_forall in Hb. apply Hb. assumption. }
      destruct (IH n (o + l * 8)) with (stop := stop) as [H|[h' [o' [H1 [H2 H3]]]]]; [lia|lia|lia|left; assumption|].
      right. exists h', o'. split; [assumption|]. split; [assumption|]. intro Hs. apply aget_ok in Hn. apply aget_ok in Hl.
      apply (walk_step data h o n l); auto; [intro; subst h stop; discriminate|lia|].
      replace (o + 8 * l) with (o + l * 8) by lia. apply H3. assumption.
  - right. exists h, o. split; [reflexivity|]. split; [assumption|]. intros _. apply walk_end. left. assumption.
Qed.

Lemma inner6_good : forall data, Forall (fun b => 0 <= b < 256) data ->
  forall fuel k enc ihdr, 0 <= ihdr -> zlen data < Z.of_nat fuel ->
  good (getInnerHashKeyIpv6 fuel k enc ihdr data).
Proof.
  intros data Hb fuel k enc ihdr H Hf. unfold getInnerHashKeyIpv6, in_bounds.
  destruct (ihdr + 8 + 40 <? zlen data) eqn:E; cbn [negb]; [|eexists; reflexivity].
  destruct (aget_rng data (ihdr + 8 + 6)) as [n Hn]; [lia|]. rewrite Hn. cbn [obind].
  destruct (ext_loop_cases data Hb fuel n (ihdr + 8 + 40) ltac:(lia) ltac:(lia) ltac:(lia) false)
    as [He|[h' [o' [He [Ho _]]]]]; rewrite He; cbn [obind]; [eexists; reflexivity|].
  destruct (rdn_ok data (ihdr + 8 + 8) 16) as [l1 H1]; [lia|lia|]. rewrite H1. cbn [obind].
  destruct (rdn_ok data (ihdr + 8 + 24) 16) as [l2 H2]; [lia|lia|]. rewrite H2. cbn [obind].
  destruct (is_l4 h'); cbn [negb]; [|eexists; reflexivity]. apply ports_tail_good. assumption.
Qed.

(** IPv6: the only packets for which the parsing reads outside the packet or fails to
    terminate are those with a fragment header and those with a truncated ICMPv6 header. *)
Lemma ipv6_good : forall fuel enc data, Forall (fun b => 0 <= b < 256) data -> zlen data < Z.of_nat fuel ->
  good (getHashKey fuel enc ETH_IPV6 data) \/
  exists nxt h o, znth data 6 = Some nxt /\ walk data nxt 40 h o /\
    (h = 44 /\ (zlen data < o + 8 \/ exists hi lo, znth data (o + 2) = Some hi /\ znth data (o + 3) = Some lo /\
                                    Z.land (hi + 256 * lo) 63743 = 0) \/
     h = 58 /\ zlen data < o + 8).
Proof.
  intros fuel enc data Hb Hf. unfold getHashKey.
  change (ETH_IPV6 =? 2048) with false. change (ETH_IPV6 =? 34525) with true. cbv beta iota.
  unfold getHashKeyIpv6, in_bounds. destruct (0 + 40 <? zlen data) eqn:E; cbn [negb]; [|left; eexists; reflexivity].
  destruct (aget_rng data 6) as [n Hn]; [lia|]. rewrite Hn. cbn [obind].
  destruct (rdn_ok data 8 16) as [s Hs]; [lia|lia|]. rewrite Hs. cbn [obind].
  destruct (rdn_ok data 24 16) as [d Hd]; [lia|lia|]. rewrite Hd. cbn [obind].
  destruct (ext_loop_cases data Hb fuel n 40 ltac:(lia) ltac:(lia) ltac:(lia) true)
    as [He|[h [o [He [Ho Hw]]]]]; rewrite He; cbn [obind]; [left; eexists; reflexivity|].
  specialize (Hw eq_refl). apply aget_ok in Hn.
  destruct (h =? 44) eqn:E44.
  - assert (h = 44) by lia. subst h.
    destruct (Z_lt_dec (zlen data) (o + 8)) as [Hl|Hl].
    + right. exists n, 44, o. auto 10.
    + destruct (rdn_ok data (o + 2) 2) as [ol Hol]; [lia|lia|]. rewrite Hol. cbn [obind].
      destruct (rdn_ok data (o + 4) 4) as [il Hil]; [lia|lia|]. rewrite Hil. cbn [obind].
      destruct (Z.land (nth 0 ol 0 + 256 * nth 1 ol 0) 63743 =? 0) eqn:Ez; [|left; eexists; reflexivity].
      right. exists n, 44, o. split; [assumption|]. split; [assumption|]. left. split; [reflexivity|]. right.
      exists (nth 0 ol 0), (nth 1 ol 0).
      rewrite rdn_range in Hol by lia. injection Hol as Hol.
      assert (G : forall m (l : list Z) a b r, skipn m l = a :: b :: r -> nth_error l m = Some a /\ nth_error l (S m) = Some b).
      { induction m as [|m IH]; intros l a b r Hl'; destruct l as [|x l]; cbn in Hl'; try discriminate.
        - injection Hl' as -> ->. auto.
        - apply IH in Hl'. exact Hl'. }
      destruct (skipn (Z.to_nat (o + 2)) data) as [|a [|b r]] eqn:Esk;
        [exfalso; assert (L := f_equal (@length Z) Esk); rewrite skipn_length in L; unfold zlen in *; cbn in L; lia..|].
      cbn in Hol. subst ol. cbn [nth] in *. apply G in Esk. destruct Esk as [G1 G2].
      unfold znth. destruct (o + 2 <? 0) eqn:E5; [lia|]. destruct (o + 3 <? 0) eqn:E6; [lia|].
      replace (Z.to_nat (o + 3)) with (S (Z.to_nat (o + 2))) by lia. split; [assumption|]. split; [assumption|]. lia.
  - unfold ipv6_upper. destruct (h =? 58) eqn:E58.
    + assert (h = 58) by lia. subst h. destruct (Z_lt_dec (zlen data) (o + 8)) as [Hl|Hl].
      * right. exists n, 58, o. auto 10.
      * left. destruct (aget_rng data o) as [t Ht]; [lia|]. rewrite Ht. cbn [obind].
        destruct (icmp6_error t); [apply inner6_good; auto|].
        destruct (t =? 128); [|eexists; reflexivity].
        destruct (rdn_ok data (o + 4) 2) as [i Hi]; [lia|lia|]. rewrite Hi. eexists. reflexivity.
    + left. destruct (is_l4 h); cbn [negb]; [|eexists; reflexivity]. apply ports_tail_good. assumption.
Qed.

(** ** C17: an options header of 8 bytes is rejected *)
Lemma ext8_rejected : forall fuel enc data h n s d, ipv6_header data 0 h s d -> h = 0 \/ h = 43 \/ h = 60 ->
  at_ data 40 [n; 0] -> getHashKey (S fuel) enc ETH_IPV6 data = Ok None.
Proof.
  intros fuel enc data h n s d [L1 [L2 [A1 [A2 A3]]]] Hh A4.
  unfold getHashKey. change (ETH_IPV6 =? 2048) with false. change (ETH_IPV6 =? 34525) with true. cbv beta iota.
  unfold getHashKeyIpv6, in_bounds. pose proof (at_len _ _ _ A4) as [_ Hl]. change (zlen [n; 0]) with 2 in Hl.
  destruct (0 + 40 <? zlen data) eqn:E; [|lia]. cbn [negb].
  change (0 + 6) with 6 in A1. change (0 + 8) with 8 in A2. change (0 + 24) with 24 in A3.
  rewrite (at_aget _ _ _ A1). cbn [obind]. rewrite (rdn_at_n _ _ 16 _ A2 L1), (rdn_at_n _ _ 16 _ A3 L2). cbn [obind].
  assert (B : aget data 40 = Ok n /\ aget data 41 = Ok 0).
  { destruct A4 as [B1 [B2 B3]]. change (Z.to_nat 40) with 40%nat in B3. cbn [length] in B3.
    assert (G : forall n (d : list Z) x y, firstn 2 (skipn n d) = [x; y] -> nth_error d n = Some x /\ nth_error d (S n) = Some y).
    { induction n0 as [|n0 IH]; intros d0 x y Hd; destruct d0 as [|a d0]; cbn in Hd; try discriminate.
      - destruct d0; try discriminate. injection Hd as -> ->. auto.
      - apply IH in Hd. exact Hd. }
    apply G in B3. destruct B3 as [B3 B4]. split; apply aget_ok; unfold znth; cbn; assumption. }
  destruct B as [B1 B2]. cbn [ext_loop].
  assert (Ex : is_ext h = true) by (destruct Hh as [->|[->| ->]]; reflexivity). rewrite Ex. cbn [negb].
  assert (E4 : true && (h =? 44) = false) by (destruct Hh as [->|[->| ->]]; reflexivity). rewrite E4.
  unfold in_bounds. destruct (40 + 2 <? zlen data); cbn [negb]; [|reflexivity].
  rewrite B1. change (40 + 1) with 41. rewrite B2. reflexivity.
Qed.

(** ** C18 *)
Lemma ipv4_not_rejected : forall fuel enc data hl p s d mf fo,
  ipv4_header data 0 hl p s d -> ipv4_frag data 0 mf fo -> 20 < zlen data -> p <> 1 ->
  (l4p p -> fo = 0 -> hl + 12 < zlen data) ->
  getHashKey fuel enc ETH_IP data <> Ok None.
Proof.
  intros fuel enc data hl p s d mf fo Hh Hf Hlen Hp Hl4.
  destruct (at_exists data 4 2) as [id [I1 I2]]; [lia|lia|].
  unfold getHashKey. change (ETH_IP =? 2048) with true. cbv beta iota.
  rewrite (getHashKeyIpv4_header _ _ _ _ _ _ _ _ _ _ Hh Hf I1 I2) by lia.
  destruct (fo =? 0) eqn:Efo; [|discriminate].
  assert (Hhl : 20 <= hl) by (destruct Hh as [_ [_ [_ [Hl _]]]]; lia).
  unfold ipv4_rest. destruct (p =? 1) eqn:E1; [lia|]. destruct (is_l4 p) eqn:El; cbn [negb]; [|discriminate].
  assert (l4p p) by (unfold is_l4 in El; unfold l4p; lia).
  assert (Hb : hl + 12 < zlen data) by (apply Hl4; [assumption|lia]).
  unfold ports_tail, in_bounds. destruct (hl + 4 <? zlen data) eqn:E2; [|lia]. cbn [negb].
  match goal with |- obind ?e _ <> _ => destruct e as [b| | |]; cbn [obind]; try discriminate end.
  destruct (hl + 8 + 4 <? zlen data) eqn:E3; [|lia]. cbn [negb]. rewrite andb_false_r.
  destruct (rdn data (if b then hl + 8 else hl) 2) as [p0| | |]; cbn [obind]; try discriminate.
  destruct (rdn data ((if b then hl + 8 else hl) + 2) 2) as [p1| | |]; cbn [obind]; try discriminate.
Qed.
