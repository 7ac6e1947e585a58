(** Lemmas for C67. *)
From Verif Require Import Base Lists IpKey_Model IpKey_Spec IpKey_Proofs IpKey2_Proofs Maglev_Model Maglev_Spec Config_Model Config_Spec MaglevThms_Proofs Flow_Spec Flow3_Proofs Fwmark_Spec Fwmark2_Proofs
  Lb_Spec Xlb_Model Xlb_Spec.

Lemma is_ext_type h : is_ext h = ext_type h.
Proof. reflexivity. Qed.

Lemma ordinary_key fuel eth data a b rc k fi : ordinary eth data a b -> getHashKey (S fuel) 0 eth data = Ok (Some (rc, k, fi)) -> k_src k = a /\ k_dst k = b.
Proof.
  intros [(-> & hl & p & s & d & -> & -> & H & F & NP & LN)|(-> & p & H & NP & NE)] K; unfold getHashKey in K.
  - change (ETH_IP =? 2048) with true in K. cbv beta iota in K.
    destruct (at_exists data 4 2) as (id & I1 & I2); [lia|lia|].
    rewrite (getHashKeyIpv4_header _ _ _ _ _ _ _ _ _ _ H F I1 I2 LN) in K. change (0 =? 0) with true in K. cbv beta iota in K.
    unfold ipv4_rest in K. replace (p =? 1) with false in K by lia.
    destruct (negb (is_l4 p)); [injection K as <- <- <-; auto|]. apply ports_tail_inv in K. destruct K as (-> & -> & _). auto.
  - change (ETH_IPV6 =? 2048) with false in K. change (ETH_IPV6 =? 34525) with true in K. cbv beta iota in K.
    destruct H as (L1 & L2 & A1 & A2 & A3). unfold getHashKeyIpv6 in K. destruct (negb (in_bounds 0 40 (zlen data))); [discriminate|].
    change (0 + 6) with 6 in A1. change (0 + 8) with 8 in A2. change (0 + 24) with 24 in A3.
    rewrite (at_aget _ _ _ A1) in K. cbn [obind] in K. rewrite (rdn_at_n _ _ 16 _ A2 L1), (rdn_at_n _ _ 16 _ A3 L2) in K. cbn [obind ext_loop] in K.
    rewrite is_ext_type, NE in K. cbn [negb obind] in K. assert (N44 : (p =? 44) = false) by (unfold ext_type in NE; destruct (p =? 44); auto; rewrite !orb_true_r in NE; discriminate).
    rewrite N44 in K. unfold ipv6_upper in K. replace (p =? 58) with false in K by lia.
    destruct (negb (is_l4 p)); [injection K as <- <- <-; auto|]. apply ports_tail_inv in K. destruct K as (-> & -> & _). auto.
Qed.
Lemma quoted_addrs fuel eth data q p a b l4 rc k fi : icmp_error eth data q -> quoted eth data q p b a l4 -> (eth = ETH_IPV6 -> ext_type p = false) ->
  getHashKey (S fuel) 0 eth data = Ok (Some (rc, k, fi)) -> k_src k = a /\ k_dst k = b.
Proof.
  intros He [(-> & s & d & hl & -> & -> & Hh & ->)|(-> & -> & Hh)] NE K.
  - rewrite (icmp_error_inner _ _ _ _ _ He) in K.
    2:{ destruct Hh as (_ & _ & _ & _ & _ & _ & A). apply at_len in A. unfold zlen in A at 1. destruct A as (_ & A). lia. }
    change (ETH_IP =? ETH_IP) with true in K. cbv beta iota in K. destruct Hh as (L1 & L2 & (b0 & B1 & B2) & Hl & A1 & A2 & A3). unfold getInnerHashKeyIpv4 in K.
    replace (q - 8 + 8) with q in K by lia. destruct (negb (in_bounds q 20 (zlen data))); [discriminate|].
    rewrite (at_aget _ _ _ B1) in K. cbn [obind] in K. destruct (b0 mod 16 <? 5) eqn:E2; [lia|].
    rewrite (rdn_at_n _ _ 4 _ A3 L2), (rdn_at_n _ _ 4 _ A2 L1), (at_aget _ _ _ A1) in K. cbn [obind] in K.
    destruct (negb (is_l4 p)); [injection K as <- <- <-; auto|]. apply ports_tail_inv in K. destruct K as (-> & -> & _). auto.
  - rewrite (icmp_error_inner _ _ _ _ _ He) in K.
    2:{ destruct Hh as (_ & L2 & _ & _ & A). apply at_len in A. unfold zlen in A at 1. lia. }
    change (ETH_IPV6 =? ETH_IP) with false in K. cbv beta iota in K. destruct Hh as (L1 & L2 & A1 & A2 & A3). unfold getInnerHashKeyIpv6 in K.
    replace (q - 8 + 8) with q in K by lia. destruct (negb (in_bounds q 40 (zlen data))); [discriminate|].
    rewrite (at_aget _ _ _ A1) in K. cbn [obind ext_loop] in K. rewrite is_ext_type, (NE eq_refl) in K. cbn [negb obind] in K.
    rewrite (rdn_at_n _ _ 16 _ A2 L1), (rdn_at_n _ _ 16 _ A3 L2) in K. cbn [obind] in K.
    destruct (negb (is_l4 p)); [injection K as <- <- <-; auto|]. apply ports_tail_inv in K. destruct K as (-> & -> & _). auto.
Qed.
Lemma belongs_key eth data a b rc k fi : belongs eth data a b -> getHashKey (S (length data)) 0 eth data = Ok (Some (rc, k, fi)) ->
  hashKeyAddresses k = djb2 (a ++ b).
Proof.
  intros [O|[(first & id & P)|[(t & M & N)|(q & p & l4 & E & Q & NE)]]] K.
  - unfold hashKeyAddresses. destruct (ordinary_key _ _ _ _ _ _ _ _ O K) as (-> & ->). auto.
  - apply (part_key _ _ _ _ _ _ _ _ _ _ P K).
  - destruct (icmp_key (length data) 0 eth data t a b M N) as (k' & K' & A & B & _). unfold hashKeyAddresses. rewrite K' in K. injection K as <- <- <-.
    rewrite A, B. auto.
  - unfold hashKeyAddresses. destruct (quoted_addrs _ _ _ _ _ _ _ _ _ _ _ E Q NE K) as (-> & ->). auto.
Qed.

Lemma has_active s : (exists j, is_active s j) \/ (forall j, ~ is_active s j).
Proof.
  destruct (existsb (fun v => 0 <=? v) (mactive s)) eqn:E.
  - left. apply existsb_exists in E. destruct E as (v & I & P). apply In_znth in I. destruct I as (j & J). exists j, v. split; auto. lia.
  - right. intros j (v & V & P). apply znth_In in V. assert (X : existsb (fun v => 0 <=? v) (mactive s) = true) by (apply existsb_exists; exists v; split; auto; lia). congruence.
Qed.
(** Reading a table that is not being changed *)
Lemma xlb_read m n rand cs s h : init_args m n rand -> reached m n rand cs s -> xlbMark s s s h = Ok (mark_or (-1) (table_mark s h)) /\
  ((exists j, is_active s j) -> exists i v, is_active s i /\ znth (mactive s) i = Some v /\ 0 <= v /\ mark_or (-1) (table_mark s h) = v).
Proof.
  intros IA R. destruct (slots_active m n rand cs s IA R) as (LN & A & N).
  assert (MP : 0 < mM s) by (destruct (reached_facts _ _ _ _ _ IA R) as (_ & _ & _ & _ & B & _); lia).
  pose proof (Z.mod_pos_bound h (mM s) MP) as HB. unfold xlbMark, table_mark.
  destruct (has_active s) as [(j & J)|NA].
  - destruct (A (ex_intro _ j J) 0 ltac:(lia)) as (i0 & E0 & I0). destruct (A (ex_intro _ j J) (h mod mM s) HB) as (i & E & I).
    destruct I0 as (v0 & V0 & P0). destruct I as (v & V & P).
    rewrite (proj2 (aget_ok _ _ _ _) E0). cbn [obind]. assert (0 <= i0) by (eapply znth_some_range; eauto). assert (0 <= i) by (eapply znth_some_range; eauto).
    replace (i0 <? 0) with false by lia. rewrite (proj2 (aget_ok _ _ _ _) E). cbn [obind]. rewrite (proj2 (aget_ok _ _ _ _) V). rewrite E.
    replace (i <? 0) with false by lia. rewrite V. replace (v <? 0) with false by lia. cbn [mark_or]. split; auto.
    intros _. exists i, v. repeat split; auto. exists v. auto.
  - rewrite (proj2 (aget_ok _ _ _ _) (N NA 0 ltac:(lia))). cbn [obind]. rewrite (N NA (h mod mM s) HB). split; auto. intros (j & J). destruct (NA j J).
Qed.

Lemma xlb_mark m n rand cs s eth data a b rc k fi : init_args m n rand -> reached m n rand cs s -> belongs eth data a b ->
  getHashKey (S (length data)) 0 eth data = Ok (Some (rc, k, fi)) ->
  xlbPacket s s s eth data = Ok (mark_or (-1) (table_mark s (djb2 (a ++ b)))).
Proof.
  intros IA R B K. unfold xlbPacket. rewrite K. cbn [obind]. rewrite (belongs_key _ _ _ _ _ _ _ B K). apply (xlb_read m n rand cs); auto.
Qed.
Lemma xlb_served m n rand cs s eth data a b : init_args m n rand -> reached m n rand cs s ->
  (exists f, flow_ok f /\ flow_packet eth data f /\ fl_src f = a /\ fl_dst f = b) \/ (exists id, part eth data false a b id) \/
  (exists t, icmp_message eth data t a b /\ ~ quoting eth t) ->
  xlbPacket s s s eth data = Ok (mark_or (-1) (table_mark s (djb2 (a ++ b)))).
Proof.
  intros IA R [(f & FK & FP & <- & <-)|[(id & P)|(t & M & N)]].
  - pose proof (plain_key (length data) 0 eth data f FK FP ltac:(intros _ X; congruence)) as K.
    unfold xlbPacket. rewrite K. cbn [obind]. apply (xlb_read m n rand cs); auto.
  - assert (K : exists rc k fi, getHashKey (S (length data)) 0 eth data = Ok (Some (rc, k, fi))).
    { destruct P as [(-> & s4 & d4 & -> & -> & F)|(-> & nxt & F)].
      - rewrite (ipv4_nonfirst _ _ _ _ _ _ F). eauto.
      - rewrite (ipv6_frag_head _ _ _ _ _ _ _ _ F). eauto. }
    destruct K as (rc & k & fi & K). eapply xlb_mark; eauto. right; left. eauto.
  - destruct (icmp_key (length data) 0 eth data t a b M N) as (k & K & _). eapply xlb_mark; eauto. right; right; left. eauto.
Qed.
Lemma xlb_reads m n rand cs s eth data r : init_args m n rand -> reached m n rand cs s -> getHashKey (S (length data)) 0 eth data = Ok r ->
  exists v, xlbPacket s s s eth data = Ok v /\ ((exists j, is_active s j) -> r <> None -> In v (mactive s) /\ 0 <= v) /\
    ((forall j, ~ is_active s j) -> v = -1).
Proof.
  intros IA R K. unfold xlbPacket. rewrite K. cbn [obind]. destruct r as [[[rc k] fi]|].
  - destruct (xlb_read m n rand cs s (hashKeyAddresses k) IA R) as (E & H). eexists. split; [exact E|]. split.
    + intros A _. destruct (H A) as (i & v & _ & V & P & ->). split; auto. eapply znth_In; eauto.
    + intros NA. unfold table_mark. destruct (slots_active m n rand cs s IA R) as (_ & _ & N).
      assert (MP : 0 < mM s) by (destruct (reached_facts _ _ _ _ _ IA R) as (_ & _ & _ & _ & B & _); lia).
      rewrite (N NA _ (Z.mod_pos_bound _ _ MP)). reflexivity.
  - exists (-1). repeat split; congruence.
Qed.
