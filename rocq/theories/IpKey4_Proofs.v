(** C17: what the key of a packet with IPv6 extension headers holds. *)
From Verif Require Import Base Lists IpKey_Model IpKey_Spec IpKey_Proofs IpKey2_Proofs IpKey3_Proofs.

Lemma at_two : forall data o x y, at_ data o [x; y] -> aget data o = Ok x /\ aget data (o + 1) = Ok y.
Proof.
  intros data o x y [B1 [B2 B3]]. cbn [length] in B3.
  assert (G : forall n (d : list Z) x y, firstn 2 (skipn n d) = [x; y] -> nth_error d n = Some x /\ nth_error d (S n) = Some y).
  { induction n as [|n IH]; intros d x0 y0 Hd; destruct d as [|a d]; cbn in Hd; try discriminate.
    - destruct d; try discriminate. injection Hd as -> ->. auto.
    - apply IH in Hd. exact Hd. }
  apply G in B3. destruct B3 as [B3 B4].
  split; apply aget_ok; unfold znth; [replace (o <? 0) with false by lia; exact B3|].
  replace (o + 1 <? 0) with false by lia. replace (Z.to_nat (o + 1)) with (S (Z.to_nat o)) by lia. exact B4.
Qed.

(** One options or routing header of 8 * (l + 1) bytes, l >= 1: the "ports" are
    taken from its last 8 bytes. *)
Lemma ext_ports : forall fuel enc data h n l s d x y, ipv6_header data 0 h s d ->
  h = 0 \/ h = 43 \/ h = 60 -> at_ data 40 [n; l] -> 1 <= l -> n = 6 \/ n = 17 \/ n = 132 ->
  ports_at data (40 + 8 * l) x y -> (n = 17 -> enc <> 0 -> port_num y <> enc) ->
  rfc8200_chain data h 40 n (48 + 8 * l) /\
  exists k, getHashKey (S (S fuel)) enc ETH_IPV6 data = Ok (Some (0, k, None)) /\ key_bytes k = flow_key (mkFlow s d n x y).
Proof.
  intros fuel enc data h n l s d x y [L1 [L2 [A1 [A2 A3]]]] Hh A4 Hl Hn HP He. split.
  { apply (ch_opt _ h 40 n l); auto. replace (40 + 8 * (l + 1)) with (48 + 8 * l) by lia. apply ch_end; lia. }
  destruct HP as [LX [LY HP2]]. pose proof HP2 as [AX [AY HL]].
  unfold getHashKey. change (ETH_IPV6 =? 2048) with false. change (ETH_IPV6 =? 34525) with true. cbv beta iota.
  unfold getHashKeyIpv6, in_bounds.
  replace (0 + 40 <? zlen data) with true by lia. cbn [negb].
  change (0 + 6) with 6 in A1. change (0 + 8) with 8 in A2. change (0 + 24) with 24 in A3.
  rewrite (at_aget _ _ _ A1). cbn [obind]. rewrite (rdn_at_n _ _ 16 _ A2 L1), (rdn_at_n _ _ 16 _ A3 L2). cbn [obind].
  destruct (at_two _ _ _ _ A4) as [B1 B2].
  destruct (is_l4_l4p n Hn) as [P1 [P2 [P3 P4]]].
  assert (EX : ext_loop (S (S fuel)) true data h 40 = Ok (Some (n, 40 + l * 8))).
  { cbn [ext_loop]. assert (Ex : is_ext h = true) by (destruct Hh as [->|[->| ->]]; reflexivity). rewrite Ex. cbn [negb].
    assert (E4 : true && (h =? 44) = false) by (destruct Hh as [->|[->| ->]]; reflexivity). rewrite E4.
    unfold in_bounds. replace (40 + 2 <? zlen data) with true by lia. cbn [negb]. rewrite B1. cbn [obind]. rewrite B2. cbn [obind].
    replace (l =? 0) with false by lia. rewrite P4. reflexivity. }
  rewrite EX. cbn [obind].
  assert (P5 : n =? 44 = false) by (destruct Hn as [->|[->| ->]]; reflexivity). rewrite P5.
  unfold ipv6_upper. rewrite P3, P1. cbn [negb]. replace (40 + l * 8) with (40 + 8 * l) by lia.
  rewrite (ports_tail_plain false data _ enc 0 n (40 + 8 * l) None x y); [|repeat split; auto; try apply AX; try apply AY|assumption].
  eexists. split; [reflexivity|]. rewrite set_all by assumption. reflexivity.
Qed.

Lemma upper6_addrs : forall fuel enc data s d htype hdr rc fi r k f,
  ipv6_upper fuel key0 enc data s d htype hdr rc fi = Ok (Some (r, k, f)) -> (rc = 0 \/ rc = 1) ->
  Z.testbit r 3 = false -> k_src k = s /\ k_dst k = d.
Proof.
  intros fuel enc data s d htype hdr rc fi r k f H Hrc Hr. unfold ipv6_upper in H.
  destruct (htype =? 58).
  - destruct (aget data hdr) as [t| | |]; try discriminate. cbn [obind] in H.
    destruct (icmp6_error t).
    + destruct (rc =? 1); [discriminate|]. exfalso. unfold getInnerHashKeyIpv6 in H.
      destruct (negb (in_bounds (hdr + 8) 40 (zlen data))); [discriminate|].
      destruct (aget data (hdr + 8 + 6)) as [nx| | |]; try discriminate. cbn [obind] in H.
      destruct (ext_loop fuel false data nx (hdr + 8 + 40)) as [[[ht hd]|]| | |]; try discriminate; cbn [obind] in H.
      destruct (rdn data (hdr + 8 + 8) 16) as [a| | |]; try discriminate. cbn [obind] in H.
      destruct (rdn data (hdr + 8 + 24) 16) as [b| | |]; try discriminate. cbn [obind] in H.
      destruct (negb (is_l4 ht)).
      * injection H as <- _ _. discriminate Hr.
      * destruct (ports_tail_inv _ _ _ _ _ _ _ _ _ _ _ H) as [_ [_ [_ [-> | ->]]]]; discriminate Hr.
    + destruct (t =? 128).
      * destruct (rdn data (hdr + 4) 2) as [i| | |]; try discriminate. cbn [obind] in H. injection H as _ <- _. split; reflexivity.
      * cbn [obind] in H. injection H as _ <- _. split; reflexivity.
  - destruct (negb (is_l4 htype)).
    + injection H as _ <- _. split; reflexivity.
    + apply ports_tail_inv in H. destruct H as [H1 [H2 _]]. rewrite H1, H2. split; reflexivity.
Qed.

(** The addresses are right whatever headers follow, in every key that is not
    that of a quoted packet (bit 3 of the return code). *)
Lemma ext_addresses : forall fuel enc data h s d r k f, ipv6_header data 0 h s d ->
  getHashKey fuel enc ETH_IPV6 data = Ok (Some (r, k, f)) -> Z.testbit r 3 = false ->
  firstn 32 (key_bytes k) = s ++ d /\ hashKeyAddresses k = djb2 (s ++ d).
Proof.
  intros fuel enc data h s d r k f [L1 [L2 [A1 [A2 A3]]]] H Hr.
  assert (G : k_src k = s /\ k_dst k = d).
  { unfold getHashKey in H. change (ETH_IPV6 =? 2048) with false in H. change (ETH_IPV6 =? 34525) with true in H. cbv beta iota in H.
    unfold getHashKeyIpv6 in H. destruct (negb (in_bounds 0 40 (zlen data))); [discriminate|].
    change (0 + 6) with 6 in A1. change (0 + 8) with 8 in A2. change (0 + 24) with 24 in A3.
    rewrite (at_aget _ _ _ A1) in H. cbn [obind] in H. rewrite (rdn_at_n _ _ 16 _ A2 L1), (rdn_at_n _ _ 16 _ A3 L2) in H. cbn [obind] in H.
    destruct (ext_loop fuel true data h 40) as [[[ht hd]|]| | |]; try discriminate; cbn [obind] in H.
    destruct (ht =? 44).
    - destruct (rdn data (hd + 2) 2) as [o| | |]; try discriminate. cbn [obind] in H.
      destruct (rdn data (hd + 4) 4) as [id| | |]; try discriminate. cbn [obind] in H.
      destruct (Z.land (nth 0 o 0 + 256 * nth 1 o 0) 63743 =? 0).
      + destruct (first_frag_loop fuel data ht hd) as [[h2 o2]| | |]; try discriminate. cbn [obind] in H.
        eapply upper6_addrs; eauto.
      + injection H as _ <- _. split; reflexivity.
    - eapply upper6_addrs; eauto. }
  destruct G as [<- <-]. split; [|reflexivity]. unfold key_bytes. rewrite app_assoc, firstn_app.
  rewrite firstn_all2 by (rewrite app_length; lia). rewrite app_length, L1, L2. cbn. apply app_nil_r.
Qed.

(** C12: every ICMPv6 message other than types 1, 2 and echo requests, so also time
    exceeded and parameter problem, has a key without ports of its own addresses. *)
Lemma icmp6_other_key : forall fuel enc data s d t, ipv6_header data 0 58 s d -> at_ data 40 [t] ->
  t <> 1 -> t <> 2 -> t <> 128 ->
  exists k, getHashKey (S fuel) enc ETH_IPV6 data = Ok (Some (16, k, None)) /\
    key_bytes k = s ++ d ++ [0; 0; 58; 0; 0; 0; 0; 0] /\ forall f, flow_ok f -> key_bytes k <> flow_key f.
Proof.
  intros fuel enc data s d t [L1 [L2 [A1 [A2 A3]]]] Ht N1 N2 N3. pose proof (at_len _ _ _ Ht) as [_ Hl]. change (zlen [t]) with 1 in Hl.
  unfold getHashKey. change (ETH_IPV6 =? 2048) with false. change (ETH_IPV6 =? 34525) with true. cbv beta iota.
  unfold getHashKeyIpv6, in_bounds. replace (0 + 40 <? zlen data) with true by lia. cbn [negb].
  change (0 + 6) with 6 in A1. change (0 + 8) with 8 in A2. change (0 + 24) with 24 in A3.
  rewrite (at_aget _ _ _ A1). cbn [obind]. rewrite (rdn_at_n _ _ 16 _ A2 L1), (rdn_at_n _ _ 16 _ A3 L2). cbn [obind].
  cbn [ext_loop]. change (is_ext 58) with false. cbn [negb obind]. change (58 =? 44) with false. cbv beta iota.
  unfold ipv6_upper. change (58 =? 58) with true. cbv beta iota. rewrite (at_aget _ _ _ Ht). cbn [obind].
  unfold icmp6_error. replace ((t =? 1) || (t =? 2)) with false by lia. replace (t =? 128) with false by lia. cbn [obind].
  eexists. split; [reflexivity|].
  assert (K : key_bytes (set_proto (set_addrs key0 s d) 58) = s ++ d ++ [0; 0; 58; 0; 0; 0; 0; 0]) by reflexivity.
  split; [exact K|]. rewrite K. intros f [[F1 _] [[F2 _] [Hp _]]] E. unfold flow_key in E.
  apply app_inj_len in E; [|congruence]. destruct E as [_ E]. apply app_inj_len in E; [|congruence]. destruct E as [_ E].
  cbn [app] in E. injection E as E _. lia.
Qed.

(** C12: the quoted packet has an options or routing header *)
Lemma quoted_ext : forall fuel enc data q h n l s d, icmp_error ETH_IPV6 data q -> ipv6_header data q h d s ->
  h = 0 \/ h = 43 \/ h = 60 -> at_ data (q + 40) [n; l] -> n = 6 \/ n = 17 \/ n = 132 ->
  rfc8200_chain data h (q + 40) n (q + 48 + 8 * l) /\
  (l = 0 -> getHashKey (S (S fuel)) enc ETH_IPV6 data = Ok None) /\
  (1 <= l -> forall x y, ports_at data (q + 40 + 8 * l) x y -> (n = 17 -> enc <> 0 -> port_num x <> enc) ->
   exists k, getHashKey (S (S fuel)) enc ETH_IPV6 data = Ok (Some (8, k, None)) /\ key_bytes k = flow_key (mkFlow s d n y x)).
Proof.
  intros fuel enc data q h n l s d HE [L1 [L2 [A1 [A2 A3]]]] Hh A4 Hn.
  pose proof (at_len _ _ _ A4) as [_ HL]. change (zlen [n; l]) with 2 in HL.
  split. { apply (ch_opt _ h (q + 40) n l); auto. replace (q + 40 + 8 * (l + 1)) with (q + 48 + 8 * l) by lia. apply ch_end; lia. }
  destruct (at_two _ _ _ _ A4) as [B1 B2]. destruct (is_l4_l4p n Hn) as [P1 [P2 [P3 P4]]].
  rewrite (icmp_error_inner _ _ _ _ _ HE) by lia. change (ETH_IPV6 =? ETH_IP) with false. cbv beta iota.
  unfold getInnerHashKeyIpv6. replace (q - 8 + 8) with q by lia. unfold in_bounds at 1 2.
  replace (q + 40 <? zlen data) with true by lia. cbn [negb].
  rewrite (at_aget _ _ _ A1). cbn [obind].
  assert (EX : ext_loop (S (S fuel)) false data h (q + 40) =
    if negb (q + 40 + 2 <? zlen data) then Ok None else if l =? 0 then Ok None else Ok (Some (n, q + 40 + l * 8))).
  { cbn [ext_loop]. assert (Ex : is_ext h = true) by (destruct Hh as [->|[->| ->]]; reflexivity). rewrite Ex. cbn [negb andb].
    unfold in_bounds. destruct (q + 40 + 2 <? zlen data); cbn [negb]; [|reflexivity]. rewrite B1. cbn [obind]. rewrite B2. cbn [obind].
    destruct (l =? 0); [reflexivity|]. rewrite P4. reflexivity. }
  rewrite EX. split.
  - intros ->. change (0 =? 0) with true. destruct (negb (q + 40 + 2 <? zlen data)); reflexivity.
  - intros Hl x y HP He. pose proof HP as [LX [LY [AX [AY HZ]]]].
    replace (q + 40 + 2 <? zlen data) with true by lia. replace (l =? 0) with false by lia. cbn [negb obind].
    rewrite (rdn_at_n _ _ 16 _ A2 L1), (rdn_at_n _ _ 16 _ A3 L2). cbn [obind]. rewrite P1. cbn [negb].
    replace (q + 40 + l * 8) with (q + 40 + 8 * l) by lia.
    rewrite (ports_tail_plain true data _ enc 8 n (q + 40 + 8 * l) None x y HP He).
    eexists. split; [reflexivity|]. rewrite set_all by assumption. reflexivity.
Qed.

Definition quoted_pkt : list Z :=
  ipv6_pkt 58 ([1;0;0;0; 0;0;0;0] ++ [96;0;0;0; 0;9;60;64] ++ repeat 7 16 ++ repeat 5 16 ++
    [17;1;1;12;9;9;9;9] ++ [9;9;8;8;9;9;9;9] ++ [0;80; 4;210; 0;9;0;0; 1]).
