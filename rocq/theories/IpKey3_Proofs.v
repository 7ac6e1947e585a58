(** The statements about hash keys in the form used by IpKey_Props.v. *)
From Verif Require Import Base Lists IpKey_Model IpKey_Spec IpKey_Proofs IpKey2_Proofs.

Lemma bytes_chk : forall l, forallb (fun b => (0 <=? b) && (b <? 256)) l = true -> Forall (fun b => 0 <= b < 256) l.
Proof. intros l H. apply Forall_forall. intros x Hx. rewrite forallb_forall in H. specialize (H x Hx). lia. Qed.

(** C10 *)
Lemma same_flow_same_key : forall fuel enc eth d1 d2 f, flow_ok f ->
  flow_packet eth d1 f -> flow_packet eth d2 f ->
  (fl_proto f = 17 -> enc <> 0 -> port_num (fl_dport f) <> enc) ->
  exists k, getHashKey (S fuel) enc eth d1 = Ok (Some (0, k, None)) /\
            getHashKey (S fuel) enc eth d2 = Ok (Some (0, k, None)) /\ key_bytes k = flow_key f.
Proof.
  intros fuel enc eth d1 d2 f Ok1 H1 H2 He. exists (mk_flow_key f).
  split; [apply plain_key; auto|]. split; [apply plain_key; auto|reflexivity].
Qed.

Lemma different_flows_different_keys : forall fuel1 fuel2 enc eth1 eth2 d1 d2 f1 f2 k1 k2, flow_ok f1 -> flow_ok f2 ->
  flow_packet eth1 d1 f1 -> flow_packet eth2 d2 f2 ->
  (fl_proto f1 = 17 -> enc <> 0 -> port_num (fl_dport f1) <> enc) ->
  (fl_proto f2 = 17 -> enc <> 0 -> port_num (fl_dport f2) <> enc) ->
  getHashKey (S fuel1) enc eth1 d1 = Ok (Some (0, k1, None)) ->
  getHashKey (S fuel2) enc eth2 d2 = Ok (Some (0, k2, None)) ->
  f1 <> f2 -> key_bytes k1 <> key_bytes k2.
Proof.
  intros fuel1 fuel2 enc eth1 eth2 d1 d2 f1 f2 k1 k2 O1 O2 H1 H2 E1 E2 G1 G2 Hne He.
  rewrite (plain_key _ _ _ _ _ O1 H1 E1) in G1. rewrite (plain_key _ _ _ _ _ O2 H2 E2) in G2.
  injection G1 as <-. injection G2 as <-. apply Hne. apply flow_key_inj; assumption.
Qed.

(** C11 *)
Lemma hash_depends : forall fuel enc eth d f r k fi mode, flow_ok f ->
  (flow_packet eth d f /\ (fl_proto f = 17 -> enc <> 0 -> port_num (fl_dport f) <> enc) \/
   enc <> 0 /\ encap_packet eth d enc f) ->
  getHashKey (S fuel) enc eth d = Ok (Some (r, k, fi)) ->
  hashKey k mode = if (fl_proto f =? 132) && (mode =? 1) then djb2 (fl_sport f ++ fl_dport f) else djb2 (flow_key f).
Proof.
  intros fuel enc eth d f r k fi mode O H G.
  assert (Hk : k = mk_flow_key f).
  { destruct H as [[H He]|[Hne H]].
    - rewrite (plain_key _ _ _ _ _ O H He) in G. congruence.
    - rewrite (encap_key _ _ _ _ _ O Hne H) in G. congruence. }
  subst k. destruct O as [_ [_ [Hp _]]].
  destruct (fl_proto f =? 132) eqn:E1; [destruct (mode =? 1) eqn:E2|]; cbn [andb].
  - assert (mode = 1) by lia. subst mode. apply sctp_hash. lia.
  - apply other_hash; lia.
  - apply other_hash; lia.
Qed.

(** C12 *)
Lemma icmp_follows : forall fuel1 fuel2 enc eth d1 d2 q l4 f r k fi, flow_ok f ->
  (* d1: packet of the flow from the client; d2: error quoting a packet of the opposite direction *)
  flow_packet eth d1 f -> (fl_proto f = 17 -> enc <> 0 -> port_num (fl_dport f) <> enc) ->
  icmp_error eth d2 q ->
  quoted eth d2 q (fl_proto f) (fl_dst f) (fl_src f) l4 -> ports_at d2 l4 (fl_dport f) (fl_sport f) ->
  getHashKey (S fuel1) enc eth d1 = Ok (Some (r, k, fi)) ->
  exists r2, getHashKey (S fuel2) enc eth d2 = Ok (Some (r2, k, None)).
Proof.
  intros fuel1 fuel2 enc eth d1 d2 q l4 f r k fi O H He Hi Hq Hp G.
  rewrite (plain_key _ _ _ _ _ O H He) in G. injection G as <- <- <-.
  destruct f as [s d p sp dp]. cbn in *.
  assert (O' : flow_ok (mkFlow d s p dp sp)) by (unfold flow_ok in *; cbn in *; tauto).
  exists 8. rewrite (quoted_key fuel2 enc eth d2 q (mkFlow d s p dp sp) l4 O' Hi Hq Hp); [reflexivity|exact He].
Qed.

Lemma icmp_follows_encap : forall fuel1 fuel2 enc eth d1 d2 q l4 f usp udp r k fi, flow_ok f -> enc <> 0 ->
  encap_packet eth d1 enc f ->
  icmp_error eth d2 q ->
  quoted eth d2 q 17 (fl_dst f) (fl_src f) l4 -> ports_at d2 l4 usp udp -> port_num usp = enc ->
  ports_at d2 (l4 + 8) (fl_dport f) (fl_sport f) ->
  getHashKey (S fuel1) enc eth d1 = Ok (Some (r, k, fi)) ->
  exists r2, getHashKey (S fuel2) enc eth d2 = Ok (Some (r2, k, None)).
Proof.
  intros fuel1 fuel2 enc eth d1 d2 q l4 f usp udp r k fi O Hne H Hi Hq Hp Hu Hp2 G.
  rewrite (encap_key _ _ _ _ _ O Hne H) in G. injection G as <- <- <-.
  destruct H as [H132 _]. destruct f as [s d p sp dp]. cbn in *.
  assert (O' : flow_ok (mkFlow d s p dp sp)) by (unfold flow_ok in *; cbn in *; tauto).
  exists 12. rewrite (quoted_encap_key fuel2 enc eth d2 q (mkFlow d s p dp sp) l4 usp udp O' Hi Hq H132 Hp Hne Hu Hp2).
  reflexivity.
Qed.

(** C42 *)
Lemma encap_like_native : forall fuel1 fuel2 enc eth d1 d2 f mode r1 k1 i1 r2 k2 i2, flow_ok f -> enc <> 0 ->
  fl_proto f = 132 -> encap_packet eth d1 enc f -> flow_packet eth d2 f ->
  getHashKey (S fuel1) enc eth d1 = Ok (Some (r1, k1, i1)) ->
  getHashKey (S fuel2) 0 eth d2 = Ok (Some (r2, k2, i2)) ->
  k1 = k2 /\ key_bytes k1 = flow_key f /\ hashKey k1 mode = hashKey k2 mode.
Proof.
  intros fuel1 fuel2 enc eth d1 d2 f mode r1 k1 i1 r2 k2 i2 O Hne Hp H1 H2 G1 G2.
  rewrite (encap_key _ _ _ _ _ O Hne H1) in G1. rewrite (plain_key _ _ _ _ _ O H2) in G2 by lia.
  injection G1 as <- <- <-. injection G2 as <- <- <-. auto.
Qed.

Lemma encap_accepted : forall fuel enc eth d f, flow_ok f -> enc <> 0 -> encap_packet eth d enc f ->
  exists k, getHashKey (S fuel) enc eth d = Ok (Some (4, k, None)) /\ key_bytes k = flow_key f.
Proof. intros fuel enc eth d f O Hne H. exists (mk_flow_key f). split; [apply encap_key; assumption|reflexivity]. Qed.

(** C59 *)
Lemma ipv4_first_like_whole : forall fuel1 fuel2 enc d1 d2 f s4 d4 l4, flow_ok f ->
  fl_src f = mapped s4 -> fl_dst f = mapped d4 ->
  ipv4_header d1 0 l4 (fl_proto f) s4 d4 -> ipv4_frag d1 0 true 0 -> ports_at d1 l4 (fl_sport f) (fl_dport f) ->
  flow_packet ETH_IP d2 f ->
  (fl_proto f = 17 -> enc <> 0 -> port_num (fl_dport f) <> enc) ->
  exists fi k, getHashKey fuel1 enc ETH_IP d1 = Ok (Some (1, k, fi)) /\
               getHashKey (S fuel2) enc ETH_IP d2 = Ok (Some (0, k, None)).
Proof.
  intros fuel1 fuel2 enc d1 d2 f s4 d4 l4 O Es Ed Hh Hf Hp H2 He.
  destruct (ipv4_first_key fuel1 enc d1 f s4 d4 l4 O Es Ed Hh Hf Hp He) as [fi Hfi].
  exists fi, (mk_flow_key f). split; [assumption|]. apply plain_key; assumption.
Qed.

Lemma ipv6_first_ignores_ports : forall fuel data src dst id nxt hi lo, ipv6_fragment data true src dst id nxt ->
  nxt = 6 \/ nxt = 17 \/ nxt = 132 -> at_ data 42 [hi; lo] ->
  exists fi k, getHashKey (S (S fuel)) 0 ETH_IPV6 data = Ok (Some (1, k, fi)) /\
    key_bytes k = flow_key (mkFlow src dst nxt [nxt; 0] [hi; lo]).
Proof.
  intros fuel data src dst id nxt hi lo H Hp Ha. destruct (ipv6_first_key fuel data src dst id nxt hi lo H Hp Ha) as [fi Hfi].
  exists fi. eexists. split; [exact Hfi|]. reflexivity.
Qed.

(** C17 *)
Lemma no_ext_key : forall fuel enc data f, flow_ok f -> ipv6_header data 0 (fl_proto f) (fl_src f) (fl_dst f) ->
  ports_at data 40 (fl_sport f) (fl_dport f) ->
  (fl_proto f = 17 -> enc <> 0 -> port_num (fl_dport f) <> enc) ->
  rfc8200_chain data (fl_proto f) 40 (fl_proto f) 40 /\
  exists k, getHashKey (S fuel) enc ETH_IPV6 data = Ok (Some (0, k, None)) /\ key_bytes k = flow_key f.
Proof.
  intros fuel enc data f O Hh Hp He. split.
  - destruct O as [_ [_ [Hpr _]]]. apply ch_end; lia.
  - exists (mk_flow_key f). split; [|reflexivity]. apply plain_key; auto. exists 40. split; [|assumption].
    right. auto.
Qed.

Definition ipv6_pkt (nxt : Z) (rest : list Z) : list Z :=
  [96;0;0;0; 0;0;nxt;64] ++ repeat 1 16 ++ repeat 2 16 ++ rest.

Lemma at_chk : forall data off l, 0 <= off -> off + zlen l <= zlen data ->
  firstn (length l) (skipn (Z.to_nat off) data) = l -> at_ data off l.
Proof. intros. unfold at_. auto. Qed.
Ltac at_solve := apply at_chk; [vm_compute; discriminate|vm_compute; discriminate|vm_compute; reflexivity].

Definition hbh_pkt := ipv6_pkt 0 ([6;0;5;2;0;0;1;0] ++ [0;80; 4;210] ++ repeat 0 16).
Lemma hbh_refuted : exists data src dst sp dp,
  ipv6_header data 0 0 src dst /\ rfc8200_chain data 0 40 6 48 /\ ports_at data 48 sp dp /\
  forall fuel, getHashKey (S fuel) 0 ETH_IPV6 data = Ok None.
Proof.
  exists hbh_pkt, (repeat 1 16), (repeat 2 16), [0;80], [4;210].
  assert (Hh : ipv6_header hbh_pkt 0 0 (repeat 1 16) (repeat 2 16)).
  { unfold ipv6_header. split; [reflexivity|]. split; [reflexivity|]. split; [at_solve|]. split; at_solve. }
  assert (H40 : at_ hbh_pkt 40 [6; 0]) by at_solve.
  split; [exact Hh|]. split.
  - apply (ch_opt _ 0 40 6 0); [auto|exact H40|]. apply ch_end; lia.
  - split.
    + unfold ports_at. split; [reflexivity|]. split; [reflexivity|]. split; [at_solve|]. split; [at_solve|vm_compute; reflexivity].
    + intro fuel. eapply ext8_rejected; [exact Hh|auto|exact H40].
Qed.

Definition dst_pkt := ipv6_pkt 60 ([6;1;1;12;9;9;9;9] ++ [9;9;9;9; 9;9;9;9] ++ [0;80; 4;210] ++ repeat 0 16).
Lemma dstopt_refuted : exists data src dst sp dp k,
  ipv6_header data 0 60 src dst /\ rfc8200_chain data 60 40 6 56 /\ ports_at data 56 sp dp /\
  getHashKey 100 0 ETH_IPV6 data = Ok (Some (0, k, None)) /\ key_bytes k <> flow_key (mkFlow src dst 6 sp dp).
Proof.
  exists dst_pkt, (repeat 1 16), (repeat 2 16), [0;80], [4;210].
  eexists. split.
  { unfold ipv6_header. split; [reflexivity|]. split; [reflexivity|]. split; [at_solve|]. split; at_solve. }
  split.
  { apply (ch_opt _ 60 40 6 1); [auto|at_solve|]. apply ch_end; lia. }
  split.
  { unfold ports_at. split; [reflexivity|]. split; [reflexivity|]. split; [at_solve|]. split; [at_solve|vm_compute; reflexivity]. }
  split; [vm_compute; reflexivity|]. vm_compute. discriminate.
Qed.

(** C16: a first fragment whose fragment header announces another extension header. *)
Definition loop_pkt := ipv6_pkt 44 [44;0;0;0;0;0;0;1].
Lemma loop_refuted : exists data, Forall (fun b => 0 <= b < 256) data /\
  forall fuel, getHashKey fuel 0 ETH_IPV6 data = Fuel.
Proof.
  exists loop_pkt. split; [apply bytes_chk; reflexivity|].
  intro fuel. destruct fuel as [|fuel]; [reflexivity|].
  unfold getHashKey. change (ETH_IPV6 =? 2048) with false. change (ETH_IPV6 =? 34525) with true. cbv beta iota.
  unfold getHashKeyIpv6. change (negb (in_bounds 0 40 (zlen loop_pkt))) with false. cbv beta iota.
  change (aget loop_pkt 6) with (@Ok Z 44). cbn [obind].
  change (rdn loop_pkt 8 16) with (@Ok (list Z) (repeat 1 16)). cbn [obind].
  change (rdn loop_pkt 24 16) with (@Ok (list Z) (repeat 2 16)). cbn [obind].
  cbn [ext_loop]. change (negb (is_ext 44)) with false. change (true && (44 =? 44)) with true. cbv beta iota. cbn [obind].
  change (44 =? 44) with true. cbv beta iota.
  change (rdn loop_pkt (40 + 2) 2) with (@Ok (list Z) [0;0]). cbn [obind].
  change (rdn loop_pkt (40 + 4) 4) with (@Ok (list Z) [0;0;0;1]). cbn [obind].
  change (Z.land (nth 0 [0; 0] 0 + 256 * nth 1 [0; 0] 0) 63743 =? 0) with true. cbv beta iota.
  assert (H : forall f, first_frag_loop f loop_pkt 44 40 = Fuel).
  { induction f as [|f IH]; [reflexivity|]. cbn [first_frag_loop]. change (negb (is_ext 44)) with false. cbv beta iota.
    change (aget loop_pkt 40) with (@Ok Z 44). change (aget loop_pkt (40 + 1)) with (@Ok Z 0). cbn [obind].
    change (40 + 0 * 8) with 40. exact IH. }
  rewrite H. reflexivity.
Qed.

(** C15 *)
Definition icmp_cut : list Z := [79;0;0;21; 0;0;0;0; 64;1;0;0; 10;0;0;1; 10;0;0;2; 0].
Lemma icmp_cut_ub : forall fuel enc, getHashKey fuel enc ETH_IP icmp_cut = UB.
Proof. reflexivity. Qed.
Definition frag_cut : list Z := ipv6_pkt 44 [6].
Lemma frag_cut_ub : forall fuel enc, getHashKey (S fuel) enc ETH_IPV6 frag_cut = UB.
Proof. intros. reflexivity. Qed.

Lemma oob_refuted : exists d4 d6, Forall (fun b => 0 <= b < 256) d4 /\ Forall (fun b => 0 <= b < 256) d6 /\
  (forall fuel enc, getHashKey fuel enc ETH_IP d4 = UB) /\
  (forall fuel enc, getHashKey (S fuel) enc ETH_IPV6 d6 = UB).
Proof.
  exists icmp_cut, frag_cut. split; [apply bytes_chk; reflexivity|]. split; [apply bytes_chk; reflexivity|].
  split; [exact icmp_cut_ub|exact frag_cut_ub].
Qed.

Lemma ipv4_always_terminates : forall fuel enc data, getHashKey fuel enc ETH_IP data <> Fuel.
Proof.
  intros fuel enc data. unfold getHashKey. change (ETH_IP =? 2048) with true. cbv beta iota.
  assert (Ha : forall d i, @aget Z d i <> Fuel) by (intros d i; unfold aget; destruct (znth d i); discriminate).
  assert (Hr : forall n d i, rdn d i n <> Fuel).
  { intros n d i. unfold rdn. destruct ((0 <=? i) && (i + Z.of_nat n <=? zlen d)); discriminate. }
  assert (Hb : forall A B (e : outcome A) (g : A -> outcome B), e <> Fuel -> (forall a, g a <> Fuel) -> obind e g <> Fuel).
  { intros A B e g H1 H2. destruct e; cbn [obind]; auto; discriminate. }
  assert (Hp : forall sw d k e rc p po fi, ports_tail sw d k e rc p po fi <> Fuel).
  { intros. unfold ports_tail. destruct (negb (in_bounds po 4 (zlen d))); [discriminate|].
    apply Hb.
    - destruct (negb (e =? 0) && (p =? 17)); [|discriminate]. apply Hb; [apply Hr|discriminate].
    - intro a. destruct (a && negb (in_bounds (po + 8) 4 (zlen d))); [discriminate|].
      apply Hb; [apply Hr|intro]. apply Hb; [apply Hr|discriminate]. }
  unfold getHashKeyIpv4. destruct (negb (in_bounds 0 20 (zlen data))); [discriminate|].
  apply Hb; [apply Ha|intro b0]. destruct (b0 mod 16 <? 5); [discriminate|].
  apply Hb; [apply Hr|intro x1]. apply Hb; [apply Hr|intro x2]. apply Hb; [apply Hr|intro x3].
  apply Hb; [apply Hr|intro x4]. apply Hb; [apply Ha|intro x5].
  destruct (negb (Z.land (be16 x1) 16383 =? 0) && negb (Z.land (be16 x1) 8191 =? 0)); [discriminate|].
  destruct (x5 =? 1).
  - apply Hb; [apply Ha|intro t]. destruct (icmp4_error t).
    + destruct (negb (Z.land (be16 x1) 16383 =? 0)); [discriminate|].
      unfold getInnerHashKeyIpv4. destruct (negb (in_bounds _ 20 (zlen data))); [discriminate|].
      apply Hb; [apply Ha|intro]. destruct (a mod 16 <? 5); [discriminate|].
      apply Hb; [apply Hr|intro]. apply Hb; [apply Hr|intro]. apply Hb; [apply Ha|intro].
      destruct (negb (is_l4 a2)); [discriminate|]. apply Hp.
    + apply Hb; [|discriminate]. destruct (t =? 8); [|discriminate]. apply Hb; [apply Hr|discriminate].
  - destruct (negb (is_l4 x5)); [discriminate|]. apply Hp.
Qed.

(** C18 *)
Definition bare4 : list Z := [69;0;0;20; 0;0;0;0; 64;59;0;0; 10;0;0;1; 10;0;0;2].
Lemma bare_refuted : (exists d s t, ipv4_header d 0 20 59 s t /\ ipv4_frag d 0 false 0 /\
    forall fuel enc, getHashKey fuel enc ETH_IP d = Ok None) /\
  (exists d s t, ipv6_header d 0 59 s t /\ forall fuel enc, getHashKey fuel enc ETH_IPV6 d = Ok None).
Proof.
  split.
  - exists bare4, [10;0;0;1], [10;0;0;2]. split.
    + unfold ipv4_header. split; [reflexivity|]. split; [reflexivity|]. split; [exists 69; split; [at_solve|reflexivity]|].
      split; [lia|]. split; [at_solve|]. split; at_solve.
    + split; [|reflexivity]. exists 0, 0. split; [at_solve|]. split; [lia|]. split; [lia|]. split; reflexivity.
  - exists (ipv6_pkt 59 []), (repeat 1 16), (repeat 2 16). split; [|reflexivity].
    unfold ipv6_header. split; [reflexivity|]. split; [reflexivity|]. split; [at_solve|]. split; at_solve.
Qed.

(** C12: ICMPv6 time exceeded (3) and parameter problem (4) *)
Definition icmp6_pkt (t : Z) : list Z :=
  ipv6_pkt 58 ([t;0;0;0; 0;0;0;0] ++ [96;0;0;0; 0;9;17;64] ++ repeat 7 16 ++ repeat 5 16 ++ [0;80; 4;210; 0;9;0;0; 1]).
Lemma icmp6_other_refuted : forall t, t = 3 \/ t = 4 ->
  exists data f, flow_ok f /\ ipv6_header data 0 58 (repeat 1 16) (repeat 2 16) /\ at_ data 40 [t] /\
    quoted ETH_IPV6 data 48 (fl_proto f) (fl_dst f) (fl_src f) 88 /\ ports_at data 88 (fl_dport f) (fl_sport f) /\
    forall k, (exists r fi, getHashKey 100 0 ETH_IPV6 data = Ok (Some (r, k, fi))) -> key_bytes k <> flow_key f.
Proof.
  intros t Ht. exists (icmp6_pkt t), (mkFlow (repeat 5 16) (repeat 7 16) 17 [4;210] [0;80]).
  destruct Ht as [-> | ->].
  all: split; [unfold flow_ok, bytes; cbn; repeat split; auto; apply bytes_chk; reflexivity|].
  all: split; [unfold ipv6_header; split; [reflexivity|]; split; [reflexivity|]; split; [at_solve|]; split; at_solve|].
  all: split; [at_solve|].
  all: split; [right; split; [reflexivity|]; split; [reflexivity|]; unfold ipv6_header; split; [reflexivity|];
    split; [reflexivity|]; split; [at_solve|]; split; at_solve|].
  all: split; [unfold ports_at; split; [reflexivity|]; split; [reflexivity|]; split; [at_solve|]; split; [at_solve|vm_compute; reflexivity]|].
  all: intros k [r [fi H]]; vm_compute in H; injection H as _ <- _; vm_compute; discriminate.
Qed.
