(** Proofs about the hash key. *)
From Verif Require Import Base Lists IpKey_Model IpKey_Spec.

Lemma rdn_at : forall data off l, at_ data off l -> rdn data off (length l) = Ok l.
Proof.
  intros data off l [H1 [H2 H3]]. unfold rdn. unfold zlen in *.
  destruct ((0 <=? off) && (off + Z.of_nat (length l) <=? Z.of_nat (length data))) eqn:E; [|lia].
  rewrite H3. reflexivity.
Qed.

Lemma rdn_at_n : forall data off n l, at_ data off l -> length l = n -> rdn data off n = Ok l.
Proof. intros data off n l H <-. apply rdn_at. assumption. Qed.

Lemma rdn_range : forall data off n, 0 <= off -> off + Z.of_nat n <= zlen data ->
  rdn data off n = Ok (firstn n (skipn (Z.to_nat off) data)).
Proof.
  intros data off n H1 H2. unfold rdn.
  destruct ((0 <=? off) && (off + Z.of_nat n <=? zlen data)) eqn:E; [reflexivity|lia].
Qed.

Lemma rdn_length : forall data off n l, rdn data off n = Ok l -> length l = n.
Proof.
  intros data off n l H. unfold rdn in H.
  destruct ((0 <=? off) && (off + Z.of_nat n <=? zlen data)) eqn:E; [|discriminate].
  injection H as <-. rewrite firstn_length, skipn_length. unfold zlen in E. lia.
Qed.

Lemma at_aget : forall data off b, at_ data off [b] -> aget data off = Ok b.
Proof.
  intros data off b [H1 [H2 H3]]. apply aget_ok. unfold znth. destruct (off <? 0) eqn:E; [lia|].
  unfold zlen in H2. cbn in H2. revert H3 H2. generalize (Z.to_nat off) as n. clear.
  intros n H3 H2. cbn [length firstn] in H3. destruct (skipn n data) as [|x r] eqn:Es; [discriminate|].
  cbn in H3. injection H3 as ->. clear H2.
  revert n Es. induction data as [|a data IH]; intros n Es; destruct n as [|n]; cbn in *; try discriminate.
  - injection Es as -> _. reflexivity.
  - apply IH. assumption.
Qed.

Lemma at_len : forall data off l, at_ data off l -> 0 <= off /\ off + zlen l <= zlen data.
Proof. intros data off l [H1 [H2 _]]. auto. Qed.

Lemma id_splice_proto : forall p, splice (repeat 0 8) 2 [p; 0] = [0; 0; p; 0; 0; 0; 0; 0].
Proof. reflexivity. Qed.

Lemma splice_ports : forall a b c d s t, length s = 2%nat -> length t = 2%nat ->
  splice (splice [a; b; c; d; 0; 0; 0; 0] 4 s) 6 t = [a; b; c; d] ++ s ++ t.
Proof.
  intros a b c d s t Hs Ht. destruct s as [|s0 [|s1 [|]]]; try discriminate.
  destruct t as [|t0 [|t1 [|]]]; try discriminate. reflexivity.
Qed.

(** The common tail. *)
Lemma ports_tail_plain : forall (swap : bool) data k udpencap rc proto ports fragid sp dp,
  ports_at data ports sp dp ->
  (proto = 17 -> udpencap <> 0 -> port_num (if swap then sp else dp) <> udpencap) ->
  ports_tail swap data k udpencap rc proto ports fragid =
  Ok (Some (rc, if swap then set_ports k dp sp else set_ports k sp dp, fragid)).
Proof.
  intros swap data k udpencap rc proto ports fragid sp dp [L1 [L2 [A1 [A2 Hlen]]]] Henc.
  unfold ports_tail, in_bounds. destruct (ports + 4 <? zlen data) eqn:E; [|lia]. cbn [negb].
  pose proof (rdn_at_n _ _ 2 _ A1 L1) as R1. pose proof (rdn_at_n _ _ 2 _ A2 L2) as R2.
  assert (Hcond : (if negb (udpencap =? 0) && (proto =? 17)
      then do p <- rdn data (if swap then ports else ports + 2) 2; Ok (be16 p =? udpencap)
      else Ok false) = Ok false).
  { destruct (negb (udpencap =? 0) && (proto =? 17)) eqn:Ec; [|reflexivity].
    assert (Hn := Henc ltac:(lia) ltac:(lia)). unfold port_num in Hn. unfold be16.
    destruct swap; [rewrite R1|rewrite R2]; cbn [obind]; f_equal; lia. }
  rewrite Hcond. cbn [obind andb]. rewrite R1, R2. cbn [obind]. destruct swap; reflexivity.
Qed.

Lemma ports_tail_encap : forall (swap : bool) data k udpencap rc ports fragid sp dp isp idp,
  ports_at data ports sp dp -> ports_at data (ports + 8) isp idp ->
  udpencap <> 0 -> port_num (if swap then sp else dp) = udpencap ->
  ports_tail swap data k udpencap rc 17 ports fragid =
  Ok (Some (rc + 4, if swap then set_ports (set_proto k 132) idp isp
                    else set_ports (set_proto k 132) isp idp, fragid)).
Proof.
  intros swap data k udpencap rc ports fragid sp dp isp idp [L1 [L2 [A1 [A2 Hlen]]]]
    [L3 [L4 [A3 [A4 Hlen2]]]] Hne Henc.
  unfold ports_tail, in_bounds. destruct (ports + 4 <? zlen data) eqn:E; [|lia]. cbn [negb].
  pose proof (rdn_at_n _ _ 2 _ A1 L1) as R1. pose proof (rdn_at_n _ _ 2 _ A2 L2) as R2.
  pose proof (rdn_at_n _ _ 2 _ A3 L3) as R3. pose proof (rdn_at_n _ _ 2 _ A4 L4) as R4.
  assert (Hcond : (if negb (udpencap =? 0) && (17 =? 17)
      then do p <- rdn data (if swap then ports else ports + 2) 2; Ok (be16 p =? udpencap)
      else Ok false) = Ok true).
  { destruct (udpencap =? 0) eqn:Ec; [lia|]. cbn [negb andb]. change (17 =? 17) with true. cbv beta iota.
    unfold port_num in Henc. unfold be16.
    destruct swap; [rewrite R1|rewrite R2]; cbn [obind]; f_equal; lia. }
  rewrite Hcond. cbn [obind andb].
  destruct (ports + 8 + 4 <? zlen data) eqn:E2; [|lia]. cbn [negb]. rewrite R3, R4. cbn [obind].
  destruct swap; reflexivity.
Qed.

(** Reading an IPv4 header. *)
Lemma frag_flags : forall data o mf fo, ipv4_frag data o mf fo ->
  exists l, at_ data (o + 6) l /\ length l = 2%nat /\
    (Z.land (be16 l) 16383 =? 0) = (negb mf && (fo =? 0)) /\ (Z.land (be16 l) 8191 =? 0) = (fo =? 0).
Proof.
  intros data o mf fo [hi [lo [H1 [H2 [H3 [H4 H5]]]]]]. exists [hi; lo]. split; [assumption|]. split; [reflexivity|].
  unfold be16. cbn [nth].
  assert (E13 : Z.land (hi * 256 + lo) 8191 = (hi * 256 + lo) mod 8192) by (apply (Z.land_ones _ 13); lia).
  assert (E14 : Z.land (hi * 256 + lo) 16383 = (hi * 256 + lo) mod 16384) by (apply (Z.land_ones _ 14); lia).
  rewrite E13, E14.
  assert (Ht : Z.testbit hi 5 = ((hi / 32) mod 2 =? 1)).
  { rewrite Z.testbit_spec' || idtac.
    pose proof (Z.testbit_spec' hi 5 ltac:(lia)) as Hb. change (2 ^ 5) with 32 in Hb.
    destruct (Z.testbit hi 5); cbn [Z.b2z] in Hb; lia. }
  assert (F1 : (hi * 256 + lo) mod 8192 = fo).
  { subst fo. symmetry. apply (Z.mod_unique _ _ (hi / 32)); [left; pose proof (Z.mod_pos_bound hi 32 ltac:(lia)); lia|].
    pose proof (Z.div_mod hi 32 ltac:(lia)). lia. }
  assert (F2 : (hi * 256 + lo) mod 16384 = ((hi / 32) mod 2) * 8192 + fo).
  { subst fo. symmetry. pose proof (Z.mod_pos_bound hi 32 ltac:(lia)). pose proof (Z.mod_pos_bound (hi/32) 2 ltac:(lia)).
    apply (Z.mod_unique _ _ (hi / 32 / 2)); [left; lia|].
    pose proof (Z.div_mod hi 32 ltac:(lia)). pose proof (Z.div_mod (hi / 32) 2 ltac:(lia)). lia. }
  rewrite F1, F2. split; [|reflexivity]. subst mf. rewrite Ht.
  pose proof (Z.mod_pos_bound (hi/32) 2 ltac:(lia)).
  assert (0 <= fo) by (subst fo; pose proof (Z.mod_pos_bound hi 32 ltac:(lia)); lia).
  destruct ((hi / 32) mod 2 =? 1) eqn:E; lia.
Qed.

(** getHashKeyIpv4 up to the protocol switch. *)
Definition ipv4_rest (k : key) (udpencap : Z) (data : list Z) (frag : bool) (s d id : list Z) (p hl : Z) : outcome res :=
  let rc := if frag then 1 else 0 in
  let fragid := if frag then Some (id_bytes id) else None in
  if p =? 1 then
    do t <- aget data hl;
    if icmp4_error t then
      if frag then Ok None else getInnerHashKeyIpv4 k udpencap hl data
    else
      let k := set_addrs k (map4 s) (map4 d) in
      do k <- (if t =? 8 then do i <- rdn data (hl + 4) 2; Ok (set_id k i) else Ok k);
      Ok (Some (rc + 16, set_proto k 1, fragid))
  else
    let k := set_proto (set_addrs k (map4 s) (map4 d)) p in
    if negb (is_l4 p) then Ok (Some (rc + 32, k, fragid))
    else ports_tail false data k udpencap rc p hl fragid.

Lemma getHashKeyIpv4_header : forall k udpencap data hl p s d mf fo id,
  ipv4_header data 0 hl p s d -> ipv4_frag data 0 mf fo -> at_ data 4 id -> length id = 2%nat ->
  20 < zlen data ->
  getHashKeyIpv4 k udpencap data =
  if fo =? 0 then ipv4_rest k udpencap data mf s d id p hl
  else Ok (Some (2, set_id (set_addrs k (map4 s) (map4 d)) id, None)).
Proof.
  intros k udpencap data hl p s d mf fo id [L1 [L2 [[b0 [B1 B2]] [Hl [Hp [Hs Hd]]]]]] Hf Hid Lid Hlen.
  unfold getHashKeyIpv4, in_bounds. destruct (0 + 20 <? zlen data) eqn:E; [|lia]. cbn [negb].
  apply at_aget in B1. rewrite B1. cbn [obind]. destruct (b0 mod 16 <? 5) eqn:E2; [lia|].
  destruct (frag_flags _ _ _ _ Hf) as [l [F1 [F2 [F3 F4]]]].
  change (0 + 6) with 6 in F1. change (0 + 12) with 12 in Hs. change (0 + 16) with 16 in Hd. change (0 + 9) with 9 in Hp.
  rewrite (rdn_at_n _ _ 2 _ F1 F2). cbn [obind].
  rewrite (rdn_at_n _ _ 4 _ Hs L1). cbn [obind]. rewrite (rdn_at_n _ _ 4 _ Hd L2). cbn [obind].
  rewrite (rdn_at_n _ _ 2 _ Hid Lid). cbn [obind].
  apply at_aget in Hp. rewrite Hp. cbn [obind]. rewrite F3, F4. rewrite B2.
  destruct (fo =? 0); destruct mf; reflexivity.
Qed.

Lemma at_exists : forall data off n, 0 <= off -> off + Z.of_nat n <= zlen data ->
  exists l, at_ data off l /\ length l = n.
Proof.
  intros data off n H1 H2. unfold zlen in H2.
  assert (Hl : length (firstn n (skipn (Z.to_nat off) data)) = n) by (rewrite firstn_length, skipn_length; lia).
  exists (firstn n (skipn (Z.to_nat off) data)). split; [|assumption].
  split; [assumption|]. split; [unfold zlen; lia|]. rewrite Hl. reflexivity.
Qed.

Definition mk_flow_key (f : flow) : key :=
  mkKey (fl_src f) (fl_dst f) ([0; 0; fl_proto f; 0] ++ fl_sport f ++ fl_dport f).

Lemma mk_flow_key_bytes : forall f, k_src (mk_flow_key f) ++ k_dst (mk_flow_key f) ++ k_id (mk_flow_key f) = flow_key f.
Proof. reflexivity. Qed.

Lemma map4_mapped : forall a, map4 a = mapped a.
Proof. reflexivity. Qed.

Lemma set_all : forall s d p sp dp, length sp = 2%nat -> length dp = 2%nat ->
  set_ports (set_proto (set_addrs key0 s d) p) sp dp = mkKey s d ([0; 0; p; 0] ++ sp ++ dp).
Proof. intros s d p sp dp H1 H2. unfold set_ports, set_proto, set_addrs. cbn [k_src k_dst k_id key0].
  rewrite id_splice_proto. rewrite splice_ports by assumption. reflexivity. Qed.

Lemma set_all_132 : forall s d p sp dp, length sp = 2%nat -> length dp = 2%nat ->
  set_ports (set_proto (set_proto (set_addrs key0 s d) p) 132) sp dp = mkKey s d ([0; 0; 132; 0] ++ sp ++ dp).
Proof. intros s d p sp dp H1 H2. unfold set_ports, set_proto, set_addrs. cbn [k_src k_dst k_id key0].
  rewrite id_splice_proto.
  change (splice [0; 0; p; 0; 0; 0; 0; 0] 2 [132; 0]) with [0; 0; 132; 0; 0; 0; 0; 0].
  rewrite splice_ports by assumption. reflexivity. Qed.

Definition l4p (p : Z) : Prop := p = 6 \/ p = 17 \/ p = 132.

Lemma is_l4_l4p : forall p, l4p p -> is_l4 p = true /\ p =? 1 = false /\ p =? 58 = false /\ is_ext p = false.
Proof. intros p [H|[H|H]]; subst p; auto. Qed.

(** The key of the L4 header at l4 (not a fragment). *)
Lemma getHashKey_l4 : forall fuel udpencap eth data p src dst l4, l4p p ->
  l4_packet eth data p src dst l4 -> l4 + 4 < zlen data ->
  getHashKey (S fuel) udpencap eth data =
  ports_tail false data (set_proto (set_addrs key0 src dst) p) udpencap 0 p l4 None.
Proof.
  intros fuel udpencap eth data p src dst l4 Hp H Hlen. destruct (is_l4_l4p p Hp) as [P1 [P2 [P3 P4]]].
  destruct H as [[-> [s4 [d4 [-> [-> [Hh Hf]]]]]]|[-> [-> Hh]]]; unfold getHashKey.
  - change (ETH_IP =? 2048) with true. cbv beta iota.
    destruct (at_exists data 4 2) as [id [I1 I2]]; [lia|destruct Hh as [_ [_ [_ [Hl _]]]]; lia|].
    rewrite (getHashKeyIpv4_header _ _ _ _ _ _ _ _ _ _ Hh Hf I1 I2) by (destruct Hh as [_ [_ [_ [Hl _]]]]; lia).
    change (0 =? 0) with true. cbv beta iota. unfold ipv4_rest. rewrite P2, P1. reflexivity.
  - change (ETH_IPV6 =? 2048) with false. change (ETH_IPV6 =? 34525) with true. cbv beta iota.
    destruct Hh as [L1 [L2 [A1 [A2 A3]]]]. unfold getHashKeyIpv6, in_bounds.
    destruct (0 + 40 <? zlen data) eqn:E; [|lia]. cbn [negb].
    change (0 + 6) with 6 in A1. change (0 + 8) with 8 in A2. change (0 + 24) with 24 in A3.
    rewrite (at_aget _ _ _ A1). cbn [obind]. rewrite (rdn_at_n _ _ 16 _ A2 L1), (rdn_at_n _ _ 16 _ A3 L2). cbn [obind].
    cbn [ext_loop]. rewrite P4. cbn [negb obind].
    assert (P5 : p =? 44 = false) by (destruct Hp as [->|[->| ->]]; reflexivity). rewrite P5.
    unfold ipv6_upper. rewrite P3, P1. reflexivity.
Qed.

(** C10 *)
Lemma plain_key : forall fuel udpencap eth data f, flow_ok f -> flow_packet eth data f ->
  (fl_proto f = 17 -> udpencap <> 0 -> port_num (fl_dport f) <> udpencap) ->
  getHashKey (S fuel) udpencap eth data = Ok (Some (0, mk_flow_key f, None)).
Proof.
  intros fuel udpencap eth data f [_ [_ [Hp _]]] [l4 [H1 H2]] Henc.
  pose proof H2 as [L1 [L2 [_ [_ Hlen]]]].
  rewrite (getHashKey_l4 fuel udpencap eth data (fl_proto f) _ _ l4 Hp H1 Hlen).
  rewrite (ports_tail_plain false _ _ _ _ _ _ _ _ _ H2 Henc). cbv beta iota.
  rewrite set_all by assumption. reflexivity.
Qed.

(** C42 *)
Lemma encap_key : forall fuel udpencap eth data f, flow_ok f -> udpencap <> 0 -> encap_packet eth data udpencap f ->
  getHashKey (S fuel) udpencap eth data = Ok (Some (4, mk_flow_key f, None)).
Proof.
  intros fuel udpencap eth data f _ Hne [Hp [l4 [sp [dp [H1 [H2 [H3 H4]]]]]]].
  pose proof H2 as [L1 [L2 [_ [_ Hlen]]]]. pose proof H4 as [L3 [L4 _]].
  rewrite (getHashKey_l4 fuel udpencap eth data 17 _ _ l4 ltac:(right; left; reflexivity) H1 Hlen).
  rewrite (ports_tail_encap false _ _ _ _ _ _ _ _ _ _ H2 H4 Hne H3). cbv beta iota.
  rewrite set_all_132 by assumption. unfold mk_flow_key. rewrite Hp. reflexivity.
Qed.

Lemma flow_key_inj : forall f g, flow_ok f -> flow_ok g -> flow_key f = flow_key g -> f = g.
Proof.
  assert (Happ : forall (a b c d : list Z), length a = length b -> a ++ c = b ++ d -> a = b /\ c = d).
  { induction a as [|x a IH]; intros [|y b] c d Hl He; try discriminate; [auto|].
    cbn in He. injection He as -> He. injection Hl as Hl. destruct (IH _ _ _ Hl He) as [-> ->]. auto. }
  intros [s1 d1 p1 sp1 dp1] [s2 d2 p2 sp2 dp2] [[A1 _] [[A2 _] [_ [[A3 _] [A4 _]]]]]
    [[B1 _] [[B2 _] [_ [[B3 _] [B4 _]]]]] He. unfold flow_key in He. cbn [fl_src fl_dst fl_proto fl_sport fl_dport] in *.
  apply Happ in He; [|congruence]. destruct He as [-> He]. apply Happ in He; [|congruence]. destruct He as [-> He].
  cbn [app] in He. injection He as -> He. apply Happ in He; [|congruence]. destruct He as [-> ->]. reflexivity.
Qed.

(** C12 *)
Lemma icmp_error_inner : forall fuel udpencap eth data q, icmp_error eth data q -> q + 5 < zlen data ->
  getHashKey (S fuel) udpencap eth data =
  if eth =? ETH_IP then getInnerHashKeyIpv4 key0 udpencap (q - 8) data
  else getInnerHashKeyIpv6 (S fuel) key0 udpencap (q - 8) data.
Proof.
  intros fuel udpencap eth data q H Hlen. unfold getHashKey.
  destruct H as [[-> [hl [s [d [t [Hh [Hf [Ht [Hte ->]]]]]]]]]|[-> [s [d [t [Hh [Ht [Hte ->]]]]]]]].
  - change (ETH_IP =? 2048) with true. change (ETH_IP =? ETH_IP) with true. cbv beta iota.
    destruct (at_exists data 4 2) as [id [I1 I2]]; [lia|destruct Hh as [_ [_ [_ [Hl _]]]]; lia|].
    rewrite (getHashKeyIpv4_header _ _ _ _ _ _ _ _ _ _ Hh Hf I1 I2) by (destruct Hh as [_ [_ [_ [Hl _]]]]; lia).
    change (0 =? 0) with true. cbv beta iota. unfold ipv4_rest. change (1 =? 1) with true. cbv beta iota.
    rewrite (at_aget _ _ _ Ht). cbn [obind].
    assert (Hi : icmp4_error t = true) by (destruct Hte as [->|[->|[->| ->]]]; reflexivity). rewrite Hi.
    replace (hl + 8 - 8) with hl by lia. reflexivity.
  - change (ETH_IPV6 =? 2048) with false. change (ETH_IPV6 =? ETH_IP) with false.
    change (ETH_IPV6 =? 34525) with true. cbv beta iota.
    destruct Hh as [L1 [L2 [A1 [A2 A3]]]]. unfold getHashKeyIpv6, in_bounds.
    destruct (0 + 40 <? zlen data) eqn:E; [|lia]. cbn [negb].
    change (0 + 6) with 6 in A1. change (0 + 8) with 8 in A2. change (0 + 24) with 24 in A3.
    rewrite (at_aget _ _ _ A1). cbn [obind]. rewrite (rdn_at_n _ _ 16 _ A2 L1), (rdn_at_n _ _ 16 _ A3 L2). cbn [obind].
    cbn [ext_loop]. change (is_ext 58) with false. cbn [negb obind]. change (58 =? 44) with false. cbv beta iota.
    unfold ipv6_upper. change (58 =? 58) with true. cbv beta iota. rewrite (at_aget _ _ _ Ht). cbn [obind].
    assert (Hi : icmp6_error t = true) by (destruct Hte as [->| ->]; reflexivity). rewrite Hi.
    change (0 =? 1) with false. reflexivity.
Qed.

Lemma quoted_tail : forall fuel udpencap eth data q p src dst l4, l4p p ->
  icmp_error eth data q -> quoted eth data q p src dst l4 -> l4 + 4 < zlen data ->
  getHashKey (S fuel) udpencap eth data =
  ports_tail true data (set_proto (set_addrs key0 dst src) p) udpencap 8 p l4 None.
Proof.
  intros fuel udpencap eth data q p src dst l4 Hp He Hq Hlen.
  destruct (is_l4_l4p p Hp) as [P1 [P2 [P3 P4]]].
  destruct Hq as [[-> [s4 [d4 [hl [-> [-> [Hh ->]]]]]]]|[-> [-> Hh]]].
  - rewrite (icmp_error_inner _ _ _ _ _ He) by (destruct Hh as [_ [_ [_ [Hl _]]]]; lia).
    change (ETH_IP =? ETH_IP) with true. cbv beta iota.
    destruct Hh as [L1 [L2 [[b0 [B1 B2]] [Hl [A1 [A2 A3]]]]]]. unfold getInnerHashKeyIpv4.
    replace (q - 8 + 8) with q by lia. unfold in_bounds. destruct (q + 20 <? zlen data) eqn:E; [|lia]. cbn [negb].
    rewrite (at_aget _ _ _ B1). cbn [obind]. destruct (b0 mod 16 <? 5) eqn:E2; [lia|].
    rewrite (rdn_at_n _ _ 4 _ A3 L2), (rdn_at_n _ _ 4 _ A2 L1), (at_aget _ _ _ A1). cbn [obind].
    rewrite P1. cbn [negb]. rewrite B2. reflexivity.
  - rewrite (icmp_error_inner _ _ _ _ _ He) by lia. change (ETH_IPV6 =? ETH_IP) with false. cbv beta iota.
    destruct Hh as [L1 [L2 [A1 [A2 A3]]]]. unfold getInnerHashKeyIpv6.
    replace (q - 8 + 8) with q by lia. unfold in_bounds. destruct (q + 40 <? zlen data) eqn:E; [|lia]. cbn [negb].
    rewrite (at_aget _ _ _ A1). cbn [obind ext_loop]. rewrite P4. cbn [negb obind].
    rewrite (rdn_at_n _ _ 16 _ A2 L1), (rdn_at_n _ _ 16 _ A3 L2). cbn [obind]. rewrite P1. reflexivity.
Qed.

Lemma quoted_key : forall fuel udpencap eth data q f l4, flow_ok f ->
  icmp_error eth data q -> quoted eth data q (fl_proto f) (fl_src f) (fl_dst f) l4 ->
  ports_at data l4 (fl_sport f) (fl_dport f) ->
  (fl_proto f = 17 -> udpencap <> 0 -> port_num (fl_sport f) <> udpencap) ->
  getHashKey (S fuel) udpencap eth data = Ok (Some (8, mk_flow_key (reverse f), None)).
Proof.
  intros fuel udpencap eth data q f l4 [_ [_ [Hp _]]] He Hq H2 Henc.
  pose proof H2 as [L1 [L2 [_ [_ Hlen]]]].
  rewrite (quoted_tail _ _ _ _ _ _ _ _ _ Hp He Hq Hlen).
  rewrite (ports_tail_plain true _ _ _ _ _ _ _ _ _ H2 Henc). cbv beta iota.
  rewrite set_all by assumption. reflexivity.
Qed.

Lemma quoted_encap_key : forall fuel udpencap eth data q f l4 sp dp, flow_ok f ->
  icmp_error eth data q -> quoted eth data q 17 (fl_src f) (fl_dst f) l4 -> fl_proto f = 132 ->
  ports_at data l4 sp dp -> udpencap <> 0 -> port_num sp = udpencap ->
  ports_at data (l4 + 8) (fl_sport f) (fl_dport f) ->
  getHashKey (S fuel) udpencap eth data = Ok (Some (12, mk_flow_key (reverse f), None)).
Proof.
  intros fuel udpencap eth data q f l4 sp dp _ He Hq Hp H2 Hne Henc H4.
  pose proof H2 as [L1 [L2 [_ [_ Hlen]]]]. pose proof H4 as [L3 [L4 _]].
  rewrite (quoted_tail _ _ _ _ _ _ _ _ _ ltac:(right; left; reflexivity) He Hq Hlen).
  rewrite (ports_tail_encap true _ _ _ _ _ _ _ _ _ _ H2 H4 Hne Henc). cbv beta iota.
  rewrite set_all_132 by assumption. unfold mk_flow_key, reverse. cbn [fl_src fl_dst fl_proto fl_sport fl_dport].
  rewrite Hp. reflexivity.
Qed.
