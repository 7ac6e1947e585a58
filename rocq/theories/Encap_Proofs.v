(** Encapsulated SCTP packets and byte matches (C42). *)
From Coq Require Import String.
From Verif Require Import Base Lists Cstr_Model Util_Spec Util_Proofs Rangeset_Spec IpKey_Model IpKey_Spec IpKey_Proofs Match_Model Match_Spec Match_Proofs Flow_Model Flow_Spec Flow_Proofs
  Flow2_Proofs Flow3_Proofs FlowLb2_Proofs Remote_Model FlowLb_Model FlowLb_Spec FlowLb3_Proofs FlowLb4_Proofs FlowLb5_Proofs Encap_Spec.

Lemma zlen_skip A (d : list A) o : 0 <= o <= zlen d -> zlen (skipn (Z.to_nat o) d) = zlen d - o.
Proof. unfold zlen. intros H. rewrite skipn_length. lia. Qed.
Lemma skip_skip A b : forall (l : list A) a, skipn a (skipn b l) = skipn (a + b) l.
Proof.
  induction b as [|b IH]; intros l a; [rewrite Nat.add_0_r; reflexivity|]. destruct l as [|x l]; [rewrite !skipn_nil; reflexivity|].
  rewrite Nat.add_succ_r. cbn [skipn]. apply IH.
Qed.
Lemma at_skip d o k l : 0 <= o <= zlen d -> 0 <= k -> (at_ d (o + k) l <-> at_ (skipn (Z.to_nat o) d) k l).
Proof.
  intros O K. unfold at_. rewrite zlen_skip, skip_skip by lia. replace (Z.to_nat k + Z.to_nat o)%nat with (Z.to_nat (o + k)) by lia.
  split; intros (A & B & C); repeat split; auto; lia.
Qed.
Lemma accepts_rest es p d1 o1 d2 o2 : Forall expr_ok es -> same_rest d1 o1 d2 o2 -> (accepts es p d1 o1 <-> accepts es p d2 o2).
Proof.
  intros K (O1 & O2 & S). rewrite Forall_forall in K. unfold accepts, holds.
  split; intros A e I E; destruct (A e I E) as (l & L1 & L2 & L3); exists l; split; auto; split; auto; destruct (K e I) as (_ & _ & OF & _).
  - apply at_skip in L2; auto. apply at_skip; auto. rewrite <- S. exact L2.
  - apply at_skip in L2; auto. apply at_skip; auto. rewrite S. exact L2.
Qed.

(** A byte match says the same of both packets. *)
Lemma makeFlow_matches L a r f : libc_ok L -> means L a r -> makeFlow L a = Ok (inr f) ->
  forall m eth d1 d2 l1 l2, f_match f = Some m -> r_match r <> None /\
    (Match_Proofs.found eth d1 17 l1 -> Match_Proofs.found eth d2 132 l2 -> l1 + 20 < zlen d1 -> l2 + 12 < zlen d2 -> same_rest d1 (l1 + 8) d2 l2 ->
     matchMatches (Some m) eth 132 d1 = matchMatches (Some m) eth 132 d2).
Proof.
  intros HL (N & P & DP & SP & DS & SS & M) E m eth d1 d2 l1 l2 EM. pose proof HL as (_ & Q & _). unfold makeFlow, MAX_NAME in E.
  destruct (1024 <=? zlen (a_name a)); [discriminate|].
  do 5 (match type of E with obind ?x _ = _ => destruct x as [[?|?]| | |]; cbn [obind] in E; try discriminate end).
  destruct (a_match a) as [ms|], (r_match r) as [es|]; cbn [given] in M; try contradiction; cbn [ifgiven] in E.
  - destruct M as (M1 & M2 & M3 & M4). destruct (match_packet ms es M1 M2 M3 M4) as (m' & E' & A & B).
    rewrite addMatches_texts, E' in E. cbn [omap obind] in E.
    match type of E with Ok (inr ?g) = _ => assert (G : f = g) by congruence end. subst f. cbn [f_match] in EM.
    assert (m' = m) by congruence. subst m'. split; [discriminate|]. intros F1 F2 L1 L2 S.
    destruct (B eth d1 l1 F1 L1) as (b1 & -> & B1). destruct (A eth d2 132 l2 132 F2 L2) as (b2 & -> & B2); [discriminate|].
    rewrite (accepts_rest es 132 d1 (l1 + 8) d2 l2 M2 S) in B1. destruct b1, b2; auto; exfalso; intuition discriminate.
  - cbn [omap obind] in E. match type of E with Ok (inr ?g) = _ => assert (G : f = g) by congruence end. subst f. discriminate.
Qed.

Lemma encap_same_match h now done eth d1 d2 f enc l4 l4' sp dp s ops ans (R : chars -> rule) L :
  libc_ok L -> run L [] ops = Ok (t_set s, ans) ->
  (forall n a, current ops ans n = Some a -> means L a (R n)) ->
  flow_ok f -> fl_proto f = 132 -> 0 < enc ->
  l4_packet eth d1 17 (fl_src f) (fl_dst f) l4 -> ports_at d1 l4 sp dp -> port_num dp = enc -> ports_at d1 (l4 + 8) (fl_sport f) (fl_dport f) ->
  l4_packet eth d2 132 (fl_src f) (fl_dst f) l4' -> ports_at d2 l4' (fl_sport f) (fl_dport f) ->
  ((forall n a, current ops ans n = Some a -> r_match (R n) = None) \/ same_rest d1 (l4 + 8) d2 l4' /\ complete_plus d2 132 l4') ->
  let outer := mkFlow (fl_src f) (fl_dst f) 17 sp dp in flow_ok outer ->
  (forall n a, current ops ans n = Some a -> accepts_packet (R n) outer d1 l4 -> a_ref a = 0 /\ a_udpencap a = enc) ->
  (exists n a, current ops ans n = Some a /\ accepts_packet (R n) outer d1 l4) ->
  runp (packet h now done eth d1) s = runp (packet h now done eth d2) s.
Proof.
  intros HL HR HM OK PR E0 P4 PA EP PI P4' PI' SR outer OO HA HX.
  assert (CP : forall n a, current ops ans n = Some a -> r_match (R n) <> None -> complete_plus d1 17 l4).
  { intros n a A N. destruct SR as [SR|((O1 & O2 & S) & C)]; [destruct N; eauto|]. unfold complete_plus in *. change (header_size 17) with 8.
    change (header_size 132) with 12 in C. pose proof (zlen_skip _ d1 (l4 + 8) O1) as Z1. rewrite S, zlen_skip in Z1 by lia. lia. }
  assert (FP : flow_packet eth d2 f) by (exists l4'; rewrite PR; auto).
  assert (G1 : getHashKey (S (length d1)) 0 eth d1 = Ok (Some (0, mk_flow_key outer, None))).
  { apply plain_key; [auto|exists l4; auto|congruence]. }
  assert (G2 : getHashKey (S (length d1)) enc eth d1 = Ok (Some (4, mk_flow_key f, None))).
  { apply encap_key; [auto|lia|]. split; auto. exists l4, sp, dp. auto. }
  assert (G3 : getHashKey (S (length d2)) 0 eth d2 = Ok (Some (0, mk_flow_key f, None))).
  { apply plain_key; [auto|auto|congruence]. }
  destruct (key_fields outer OO) as (K1 & _ & K3). destruct (key_fields f OK) as (K1' & _ & _).
  cbn [outer fl_proto fl_dport] in K1, K3. rewrite EP in K3. rewrite PR in K1'.
  destruct (run_inv L ops HL [] _ (t_set s) ans (inv_nil L) HR) as ((I1 & I2 & I3 & I4) & _). fold (current ops ans) in *.
  assert (FM : forall g, In g (t_set s) -> exists a, current ops ans (f_name g) = Some a /\ makeFlow L a = Ok (inr g) /\ Flow_Proofs.agrees a (R (f_name g)) g).
  { intros g G. destruct (I3 g G) as (a & A1 & A2). pose proof (HM _ _ A1) as M1.
    destruct (makeFlow_ok L a _ HL M1) as (f' & EF & AG). assert (f' = g) by congruence. subst f'. exists a. auto. }
  assert (NP : forall v k g eth p, flowMatch false k g eth p = Ok v -> v <> NoMatch -> v = Match).
  { intros v k g eth0 p X N. unfold flowMatch in X. destruct (negb _); [congruence|]. destruct (negb _); [congruence|]. cbn [andb] in X.
    destruct (negb _); [congruence|]. destruct (inPorts _ _) as [b| | |]; cbn [obind] in X; try discriminate. destruct (negb b); [congruence|].
    destruct (inPorts _ _) as [b'| | |]; cbn [obind] in X; try discriminate. destruct (negb b'); [congruence|].
    match type of X with obind ?y _ = _ => destruct y as [b''| | |]; cbn [obind] in X; try discriminate end. destruct b''; congruence. }
  assert (L1 : forall u, flowLookup (h_ping h) (t_set s) (mk_flow_key outer) eth (Some d1) u = Ok (0, enc)).
  { intros u. assert (PO : flowLookup (h_ping h) (t_set s) (mk_flow_key outer) eth (Some d1) u = flowLookup false (t_set s) (mk_flow_key outer) eth (Some d1) u)
      by (destruct (h_ping h); auto; apply ping_others; lia). rewrite PO. apply lookup_companions.
    - intros g G. destruct (FM g G) as (a & A1 & _ & A2).
      destruct (match_one a _ g outer eth d1 l4 A2 OO P4 PA) as (v & V1 & V2); [exact (CP _ _ A1)|]. exists v. split; auto. intros N.
      split; [eapply NP; eauto|]. assert (HV : hit v = true) by (destruct v; auto; congruence). apply V2 in HV.
      destruct (HA _ _ A1 HV) as (X1 & X2). destruct A2 as (_ & _ & Y1 & Y2 & _). split; congruence.
    - left. destruct HX as (n & a & A1 & A2). destruct (I4 _ _ A1) as (AN & g & F1 & F2). destruct (FM g F1) as (a' & B1 & _ & B2).
      destruct (makeFlow_fields _ _ _ F2) as (GN & _). assert (EN : f_name g = n) by congruence.
      destruct (match_one a' _ g outer eth d1 l4 B2 OO P4 PA) as (v & V1 & V2); [exact (CP _ _ B1)|].
      exists g, v. split; auto. split; auto. rewrite EN in V2. apply V2 in A2. destruct v; [discriminate|discriminate|discriminate]. }
  assert (L2 : forall u, flowLookup (h_ping h) (t_set s) (mk_flow_key f) eth (Some d1) u = flowLookup (h_ping h) (t_set s) (mk_flow_key f) eth (Some d2) u).
  { assert (FE : forall g, In g (t_set s) -> flowMatch (h_ping h) (mk_flow_key f) g eth (Some d1) = flowMatch (h_ping h) (mk_flow_key f) g eth (Some d2)).
    { intros g G. destruct (FM g G) as (a & A1 & A2 & _). destruct (f_match g) as [m|] eqn:EM; [|apply flowMatch_packet; exact EM].
      unfold flowMatch. rewrite EM, K1'.
      destruct (makeFlow_matches L a _ g HL (HM _ _ A1) A2 m eth d1 d2 l4 l4' EM) as (NN & EQ). rewrite EQ; [reflexivity|..].
      - eapply l4_found; [exact P4|reflexivity|]. destruct PA as (_ & _ & _ & _ & X). lia.
      - eapply l4_found; [exact P4'|reflexivity|]. destruct PI' as (_ & _ & _ & _ & X). lia.
      - destruct SR as [SR|((O1 & O2 & S) & C)]; [destruct NN; eauto|]. unfold complete_plus in C. change (header_size 132) with 12 in C.
        pose proof (zlen_skip _ d1 (l4 + 8) O1) as Z1. rewrite S, zlen_skip in Z1 by lia. lia.
      - destruct SR as [SR|(_ & C)]; [destruct NN; eauto|exact C].
      - destruct SR as [SR|(X & _)]; [destruct NN; eauto|exact X]. }
    revert FE. generalize (t_set s). induction l as [|g l IH]; intros FE u; cbn [flowLookup]; auto. rewrite (FE g (or_introl eq_refl)).
    destruct (flowMatch (h_ping h) (mk_flow_key f) g eth (Some d2)) as [v| | |]; cbn [obind]; auto.
    destruct (match v with NoMatch => 0 | _ => f_ref g end =? 0); auto. apply IH. intros x X. apply FE. right. exact X. }
  unfold packet. rewrite G1, G3. change (Z.land 0 3 =? 0) with true. cbv iota. unfold classify.
  rewrite (run_lookup0 _ _ _ _ _ _ _ _ (L1 0)). rewrite K1, K3, K1', !Z.eqb_refl. cbn [andb]. rewrite G2.
  change (132 =? 17) with false. cbn [andb]. unfold lookup. cbn [runp]. rewrite L2.
  destruct (flowLookup (h_ping h) (t_set s) (mk_flow_key f) eth (Some d2) 0) as [[a u]| | |]; auto.
Qed.

(** ** The example: a flow with a byte match, and its companion *)
Definition ex_b_args : fargs := mkArgs (str "a") 10 1 (Some [str "sctp"]) None None None None (Some [str "sctp[4:4]=7"]) 9899.
Definition ex_b_comp : fargs := mkArgs (str "#a") 10 0 (Some [str "udp"]) (Some (str "9899")) None None None None 9899.
Definition ex_b_ops : list op := [Define ex_b_comp; Define ex_b_args].
Definition ex_b_expr : expr := mkExpr 132 4 4 None 7.
Definition ex_b_rules (n : chars) : rule :=
  if streq n (str "#a") then mkRule (Some [17]) (Some [(9899, 9899)]) None None None None else mkRule (Some [132]) None None None None (Some [ex_b_expr]).
Definition ex_b_sctp : list Z := [4;210; 0;80; 0;0;0;7; 1;2;3;4; 0].
Definition ex_b_encap : list Z := ex_ip 17 ([9;9; 38;171; 0;0;0;0] ++ ex_b_sctp).
Definition ex_b_native : list Z := ex_ip 132 ex_b_sctp.
Lemma ex_b_denotes : denotes (str "sctp[4:4]=7") ex_b_expr.
Proof.
  assert (B0 : blanks []) by (exists 0%nat; auto).
  assert (D4 : is_dec [52] 4) by (split; [congruence|]; split; [repeat constructor; lia|]; split; [reflexivity|cbn; discriminate]).
  exists (str "sctp"), (str "4"), [], [], (str "4"), [], [], [], (str "7").
  split; [reflexivity|]. split; [left; auto|]. split; [exact D4|]. split; [exact D4|]. split; [reflexivity|]. split; [left|auto].
  change (is_dec [55] 7). split; [congruence|]. split; [repeat constructor; lia|]. split; [reflexivity|cbn; discriminate].
Qed.
Lemma ex_byte_example : exists set ans, run ex_lib [] ex_b_ops = Ok (set, ans) /\
  (forall n a, current ex_b_ops ans n = Some a -> means ex_lib a (ex_b_rules n)) /\
  flow_ok ex_inner /\ flow_ok ex_outer /\
  l4_packet 2048 ex_b_encap 17 (fl_src ex_inner) (fl_dst ex_inner) 20 /\ ports_at ex_b_encap 20 [9;9] [38;171] /\ port_num [38;171] = 9899 /\
  ports_at ex_b_encap 28 (fl_sport ex_inner) (fl_dport ex_inner) /\
  l4_packet 2048 ex_b_native 132 (fl_src ex_inner) (fl_dst ex_inner) 20 /\ ports_at ex_b_native 20 (fl_sport ex_inner) (fl_dport ex_inner) /\
  same_rest ex_b_encap 28 ex_b_native 20 /\ complete_plus ex_b_native 132 20 /\
  (forall n a, current ex_b_ops ans n = Some a -> accepts_packet (ex_b_rules n) ex_outer ex_b_encap 20 -> a_ref a = 0 /\ a_udpencap a = 9899) /\
  (exists n a, current ex_b_ops ans n = Some a /\ accepts_packet (ex_b_rules n) ex_outer ex_b_encap 20).
Proof.
  eexists _, _. split; [vm_compute; reflexivity|].
  assert (C : forall n, current ex_b_ops [Defined None; Defined None] n =
    if streq n (str "a") then Some ex_b_args else if streq n (str "#a") then Some ex_b_comp else None) by reflexivity.
  assert (EA : forall n, streq n (str "a") = true -> streq n (str "#a") = false).
  { intros n H. apply streq_eq in H. rewrite H. reflexivity. }
  split.
  { intros n a. rewrite C. unfold ex_b_rules. destruct (streq n (str "a")) eqn:E1.
    - rewrite (EA n E1). intros H. assert (a = ex_b_args) as -> by congruence.
      unfold means. cbn -[str]. split; [reflexivity|]. split; [constructor; [|constructor]; exists (str "sctp"); split; [repeat constructor|unfold Match_Spec.proto_name; auto]|].
      repeat (split; [exact Logic.I|]).
      split; [constructor; [exact ex_b_denotes|constructor]|].
      split; [apply Forall_cons; [|apply Forall_nil]; unfold expr_ok, is_l4proto, is_u32; cbn; split; [auto|]; split; [auto|]; repeat split; try lia; discriminate|].
      split; (apply Forall_cons; [|apply Forall_nil]); cbn; discriminate.
    - destruct (streq n (str "#a")); [|discriminate].
      intros H. assert (a = ex_b_comp) as -> by congruence.
      split; [reflexivity|]. split; [|split; [apply (port_text 9899); lia|cbn; auto]].
      constructor; [|constructor]. exists (str "udp"). split; [repeat constructor|]. unfold Match_Spec.proto_name. auto. }
  split; [apply ex_flows_ok|]. split; [apply ex_flows_ok|].
  split; [l4_solve|]. split; [hdr_solve|]. split; [reflexivity|]. split; [hdr_solve|]. split; [l4_solve|]. split; [hdr_solve|].
  split; [split; [split; vm_compute; discriminate|split; [split; vm_compute; discriminate|reflexivity]]|]. split; [reflexivity|]. split.
  - intros n a. rewrite C. unfold ex_b_rules. destruct (streq n (str "a")) eqn:E1.
    + rewrite (EA n E1). intros _ (_ & H & _). cbn in H. destruct H as [H|[]]. discriminate.
    + destruct (streq n (str "#a")); [|discriminate]. intros H _. assert (a = ex_b_comp) as -> by congruence. split; reflexivity.
  - exists (str "#a"), ex_b_comp. split; [reflexivity|].
    unfold ex_b_rules, accepts_packet, accepts_addr. change (streq (str "#a") (str "#a")) with true. cbv iota. cbn [r_dsts r_srcs r_protocols r_dports r_sports r_match all_or].
    split; [auto|]. split; [cbn; auto|]. split; [|auto]. exists 9899, 9899. split; [left; auto|]. cbn. lia.
Qed.
