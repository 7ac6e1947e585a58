(** The fwmark command and the data path (C49). *)
From Coq Require Import String.
From Verif Require Import Base Lists Cstr_Model IpKey_Model IpKey_Spec IpKey_Proofs IpKey2_Proofs IpKey3_Proofs Maglev_Model Rangeset_Spec Match_Spec
  Flow_Model Flow_Spec Flow3_Proofs FlowLb_Model FlowLb_Spec FlowLb4_Proofs FlowLb5_Proofs Lb_Model Lb_Spec Lb3_Proofs LbEx_Proofs Fwmark_Model Fwmark_Spec Fwmark_Proofs.

Lemma asked_hash L gai src dst p mode shm f m : pton_ok L -> gai_ok L gai -> asked L src dst p f -> mode_text mode m ->
  cmdFwmark gai src dst (Some p) mode shm = printMark (flow_hash m f) shm.
Proof.
  intros PT G ((sn & ES & PS) & (dn & ED & PD) & PR) MT. eapply fwmark_hash; eauto.
Qed.
Lemma fwmark_prints L gai src dst p mode f m t : pton_ok L -> gai_ok L gai -> asked L src dst p f -> mode_text mode m ->
  (cmdFwmark gai src dst (Some p) mode None = Ok (mkOut (flow_hash m f) None)) /\
  (table_ok t -> exists i ai fw, cmdFwmark gai src dst (Some p) mode (Some (Some t)) = Ok (mkOut (flow_hash m f) (Some (i, ai, fw))) /\
    i = flow_hash m f mod mM t /\ znth (mlookup t) i = Some ai /\ forall none, mark_or none (table_mark t (flow_hash m f)) = if fw <? 0 then none else fw).
Proof.
  intros PT G A MT. split; [rewrite (asked_hash _ _ _ _ _ _ _ _ _ PT G A MT); reflexivity|].
  intros T. rewrite (asked_hash _ _ _ _ _ _ _ _ _ PT G A MT). apply print_mark. auto.
Qed.
Lemma print_predicted hash t o none : printMark hash (Some (Some t)) = Ok o -> predicted o none (mark_or none (table_mark t hash)).
Proof. intros H. destruct (print_inv _ _ _ H) as (i & ai & fw & -> & X). exists i, ai, fw. split; auto. Qed.

Lemma fwmark_lb L gai src dst p mode t o g w0 now done eth data f w1 tr w v : pton_ok L -> gai_ok L gai ->
  asked L src dst p f -> mode_text mode (h_mode (l_h g)) -> cmdFwmark gai src dst (Some p) mode (Some (Some t)) = Ok o ->
  flow_ok f ->
  (flow_packet eth data f /\ (fl_proto f = 17 -> l_encap g <> 0 -> port_num (fl_dport f) <> l_encap g) \/
   l_encap g <> 0 /\ encap_packet eth data (l_encap g) f) ->
  lstep g w0 (LArrive now done eth data) = Some (LCont w1) -> lexec g w1 tr w ->
  (forall w', lpassed g w1 tr w w' -> t_mem (lw_st w') (l_target g) = t) ->
  znth (lw_pk w) (zlen (lw_pk w0)) = Some (Ret (Verdict v)) -> predicted o (h_notargets (l_h g)) v.
Proof.
  intros PT G A MT C O HF E H HT Z. rewrite (asked_hash _ _ _ _ _ _ _ _ _ PT G A MT) in C.
  rewrite (lb_exact g w0 now done eth data f w1 tr w v t O HF E H HT Z). apply print_predicted. exact C.
Qed.
Lemma fwmark_flowlb L gai src dst p mode t o h w0 now done eth data fl l4 w1 ev tr w v ops set ans (R : chars -> rule) :
  libc_ok L -> gai_ok L gai ->
  asked L src dst p fl -> mode_text mode (h_mode h) -> cmdFwmark gai src dst (Some p) mode (Some (Some t)) = Ok o ->
  run L [] ops = Ok (set, ans) -> (forall n a, current ops ans n = Some a -> means L a (R n)) ->
  flow_ok fl -> l4_packet eth data (fl_proto fl) (fl_src fl) (fl_dst fl) l4 -> ports_at data l4 (fl_sport fl) (fl_dport fl) ->
  (forall n a, current ops ans n = Some a -> r_match (R n) <> None -> complete_plus data (fl_proto fl) l4) ->
  (fl_proto fl = 17 -> port_num (fl_dport fl) <> 0 /\
     forall n a, current ops ans n = Some a -> accepts_packet (R n) fl data l4 -> a_udpencap a <> port_num (fl_dport fl)) ->
  step h w0 (Arrive now done eth data) = Some (Cont w1 ev) -> exec h anything w1 tr w ->
  (forall w', passed h w1 tr w w' -> t_set (w_st w') = set) ->
  (exists n a, current ops ans n = Some a /\ a_ref a <> 0 /\ accepts_packet (R n) fl data l4) ->
  (forall n a, current ops ans n = Some a -> a_ref a <> 0 -> accepts_packet (R n) fl data l4 ->
     (forall n' a', current ops ans n' = Some a' -> a_ref a' <> 0 -> accepts_packet (R n') fl data l4 -> a_priority a' <= a_priority a) ->
     forall w' r, passed h w1 tr w w' -> lbRegion (a_ref a) (w_st w') = Some r -> t_mem (w_st w') r = t) ->
  znth (w_pk w) (zlen (w_pk w0)) = Some (Ret (Verdict v)) -> predicted o (h_notargets h) v.
Proof.
  intros HL G A MT C HR HM OK P4 PA HC HU E H HS (n0 & a0 & C0 & R0 & AC0) HT Z.
  rewrite (asked_hash _ _ _ _ _ _ _ _ _ (proj1 HL) G A MT) in C.
  destruct (flowlb_exact h w0 now done eth data fl l4 w1 ev tr w v L ops set ans R HL HR HM OK P4 PA HC HU E H HS Z)
    as [(n & a & CU & AR & AC & MX & V)|(_ & X)].
  - rewrite (V t); [apply print_predicted; exact C|]. intros w' r PW LR. exact (HT n a CU AR AC MX w' r PW LR).
  - exfalso. exact (R0 (X n0 a0 C0 AC0)).
Qed.

(** ** The LB tier *)
Lemma part_key enc eth data first a b id rc k fi : part eth data first a b id ->
  getHashKey (S (length data)) enc eth data = Ok (Some (rc, k, fi)) -> hashKeyAddresses k = djb2 (a ++ b) /\ Z.land rc 3 <> 0.
Proof.
  intros P K. assert (X : k_src k = a /\ k_dst k = b /\ (Z.odd rc = true \/ rc = 2)).
  { destruct P as [(-> & s & d & -> & -> & F)|(-> & nxt & F)].
    - destruct first.
      + destruct (ipv4_first _ _ _ _ _ _ _ _ _ F K) as (R & _ & A & B). auto.
      + rewrite (ipv4_nonfirst _ _ _ _ _ _ F) in K. injection K as <- <- <-. auto.
    - destruct first.
      + destruct (ipv6_first _ _ _ _ _ _ _ _ _ _ F K) as (R & _ & A & B). auto.
      + rewrite (ipv6_frag_head _ _ _ _ _ _ _ _ F) in K. injection K as <- <- <-. auto. }
  destruct X as (A & B & R). split; [unfold hashKeyAddresses; rewrite A, B; auto|]. destruct R as [R| ->]; [|discriminate].
  intros Z0. assert (T : Z.testbit (Z.land rc 3) 0 = true) by (rewrite Z.land_spec, Z.bit0_odd, R; reflexivity). rewrite Z0 in T. discriminate.
Qed.
Lemma read_print reg hash k s r o : reg s = Some r -> printMark hash (Some (Some (t_mem s r))) = Ok o ->
  exists i ai fw, o_table o = Some (i, ai, fw) /\ (ai < 0 -> fw = -1) /\ runp (readTable reg hash k) s = runp (k (if ai <? 0 then ai else fw)) s.
Proof.
  intros R. unfold printMark. destruct (Z.eqb_spec (mM (t_mem s r)) 0) as [|M]; [discriminate|]. unfold aget.
  destruct (znth (mlookup (t_mem s r)) _) as [ai|] eqn:EI; [|discriminate]. cbn [obind].
  pose proof (run_read reg hash k s r ai R M EI) as RR. destruct (Z.leb_spec 0 ai) as [N|N].
  - destruct (znth (mactive (t_mem s r)) ai) as [fw|] eqn:EF; [|discriminate]. cbn [obind]. intros H. injection H as <-.
    exists (hash mod mM (t_mem s r)), ai, fw. split; auto. split; [lia|]. destruct (Z.ltb_spec ai 0); [lia|]. auto.
  - cbn [obind]. intros H. injection H as <-. exists (hash mod mM (t_mem s r)), ai, (-1). split; auto. split; [auto|].
    destruct (Z.ltb_spec ai 0); [|lia]. auto.
Qed.
Lemma fwmark_tier L gai src dst mode sn dn a b id first o h now done eth data s r own : pton_ok L -> gai_ok L gai ->
  endpoint L src a sn -> endpoint L dst b dn -> cmdFwmark gai src dst None mode (Some (Some (t_mem s r))) = Ok o ->
  part eth data first a b id -> h_tier h = Some (r, own) -> fragment 0 eth data ->
  exists i ai fw, o_table o = Some (i, ai, fw) /\
    runp (packet h now done eth data) s =
    if (0 <=? fw) && negb (fw =? own) then Some (Verdict fw, s, []) else runp (packet (untiered h) now done eth data) s.
Proof.
  intros PT G ES ED C P T (rc & k & fi & K & NF). destruct (part_key _ _ _ _ _ _ _ _ _ _ P K) as (HK & _).
  rewrite (fwmark_addresses L gai src dst mode _ a b sn dn PT G ES ED) in C.
  unfold packet at 1. rewrite K. destruct (Z.eqb_spec (Z.land rc 3) 0) as [|_]; [congruence|]. unfold tier at 1. rewrite T, HK.
  match goal with |- context [readTable ?reg ?hh ?kk] => destruct (read_print reg hh kk s r o eq_refl C) as (i & ai & fw & -> & N & ->) end.
  exists i, ai, fw. split; auto. unfold packet. rewrite K. destruct (Z.eqb_spec (Z.land rc 3) 0) as [|_]; [congruence|].
  unfold tier. cbn [h_tier untiered].
  destruct (Z.ltb_spec ai 0) as [A|A].
  - rewrite (N A). replace (0 <=? ai) with false by lia. reflexivity.
  - destruct ((0 <=? fw) && negb (fw =? own)); reflexivity.
Qed.
Lemma fwmark_tier_lb L gai src dst mode sn dn a b id first o g now done eth data s r own : pton_ok L -> gai_ok L gai ->
  endpoint L src a sn -> endpoint L dst b dn -> cmdFwmark gai src dst None mode (Some (Some (t_mem s r))) = Ok o ->
  part eth data first a b id -> h_tier (l_h g) = Some (r, own) -> fragment (l_encap g) eth data ->
  exists i ai fw, o_table o = Some (i, ai, fw) /\
    runp (lbPacket g now done eth data) s =
    if (0 <=? fw) && negb (fw =? own) then Some (Verdict fw, s, [])
    else runp (lbPacket (mkL (untiered (l_h g)) (l_encap g) (l_target g)) now done eth data) s.
Proof.
  intros PT G ES ED C P T (rc & k & fi & K & NF). destruct (part_key _ _ _ _ _ _ _ _ _ _ P K) as (HK & _).
  rewrite (fwmark_addresses L gai src dst mode _ a b sn dn PT G ES ED) in C.
  unfold lbPacket at 1. rewrite K. destruct (Z.eqb_spec (Z.land rc 3) 0) as [|_]; [congruence|]. unfold tier at 1. rewrite T, HK.
  match goal with |- context [readTable ?reg ?hh ?kk] => destruct (read_print reg hh kk s r o eq_refl C) as (i & ai & fw & -> & N & ->) end.
  exists i, ai, fw. split; auto. unfold lbPacket. cbn [l_encap]. rewrite K. destruct (Z.eqb_spec (Z.land rc 3) 0) as [|_]; [congruence|].
  unfold tier. cbn [h_tier untiered l_h].
  destruct (Z.ltb_spec ai 0) as [A|A].
  - rewrite (N A). replace (0 <=? ai) with false by lia. reflexivity.
  - destruct ((0 <=? fw) && negb (fw =? own)); reflexivity.
Qed.

(** ** IPv4 addresses in brackets *)
Lemma bracket_src L gai h p q n dst proto mode shm : gai_ok L gai -> is_quad h q -> is_dec p n -> n <= 65535 ->
  zlen (str "[" ++ h ++ str "]:" ++ p) <= 60 -> length q = 4%nat ->
  cmdFwmark gai (str "[" ++ h ++ str "]:" ++ p) dst proto mode shm = UB.
Proof.
  intros (_ & G4) Q D N LS LQ. unfold cmdFwmark, adrParse. destruct (Z.ltb_spec 60 (zlen (str "[" ++ h ++ str "]:" ++ p))); [lia|].
  replace (existsb (Z.eqb 91) (str "[" ++ h ++ str "]:" ++ p)) with true by reflexivity. cbn [obind].
  rewrite (parse_bracket gai h p n (Some (in4_bytes q n))); auto; [|intros IX; apply (quad_no h q 93 Q) in IX; auto; lia].
  destruct q as [|q0 [|q1 [|q2 [|q3 [|]]]]]; try discriminate. reflexivity.
Qed.
Lemma bracket_dst L gai src a sn h p q n proto mode shm : pton_ok L -> gai_ok L gai -> endpoint L src a sn -> is_quad h q -> is_dec p n -> n <= 65535 ->
  zlen (str "[" ++ h ++ str "]:" ++ p) <= 60 -> length q = 4%nat ->
  forall pr f, proto = Some pr -> proto_text pr (fl_proto f) ->
  fl_src f = a -> fl_sport f = port_bytes sn -> fl_dst f = repeat 0 8 ++ skipn 8 a -> fl_dport f = port_bytes n ->
  forall m, mode_text mode m ->
  cmdFwmark gai src (str "[" ++ h ++ str "]:" ++ p) proto mode shm = printMark (flow_hash m f) shm.
Proof.
  intros PT G ES Q D N LS LQ pr f -> PR FA FS FD FP m MT. unfold cmdFwmark.
  destruct (adr_in6 L gai src a sn uninit PT G ES eq_refl) as (-> & LA & S0). cbn [obind].
  destruct (in6_addr a sn LA) as (-> & ->). cbn [obind].
  unfold adrParse. destruct (Z.ltb_spec 60 (zlen (str "[" ++ h ++ str "]:" ++ p))); [lia|].
  replace (existsb (Z.eqb 91) (str "[" ++ h ++ str "]:" ++ p)) with true by reflexivity. cbn [obind].
  rewrite (parse_bracket gai h p n (Some (in4_bytes q n))); auto; [|intros IX; apply (quad_no h q 93 Q) in IX; auto; lia|apply (proj2 G); auto].
  destruct q as [|q0 [|q1 [|q2 [|q3 [|]]]]]; try discriminate.
  rewrite memcpy_ok by (unfold in4_bytes, port_bytes, zlen; cbn; lia). cbn [obind].
  do 16 (destruct a as [|? a]; [discriminate|]). destruct a; [|discriminate].
  cbn [in4_bytes in6_bytes port_bytes app map length skipn sin6_addr sin6_port firstn determinate obind].
  destruct (proto_ok pr _ PR) as (-> & NZ). rewrite (proj2 (Z.eqb_neq _ _) NZ). rewrite (mode_ok mode m MT).
  f_equal. unfold hashKey, flow_hash, flow_key. rewrite FA, FS, FD, FP. cbn [k_src k_dst k_id app nth skipn repeat port_bytes].
  replace (fl_proto f + 256 * 0) with (fl_proto f) by lia. auto.
Qed.

(** ** Examples *)
Definition ex_gai (h p : chars) : option (list Z) :=
  let n := fold_left (fun a c => a * 10 + (c - 48)) p 0 in
  match pton ex_lib h, existsb (Z.eqb 58) h with
  | Some a, true => Some (in6_bytes a n)
  | _, _ => match quad h with Some q => Some (in4_bytes q n) | None => None end
  end.
Lemma ex_gai_ok : gai_ok ex_lib ex_gai.
Proof.
  split; intros h p a n H.
  - intros PA (_ & _ & D & _) _. unfold ex_gai. rewrite PA, D. replace (existsb (Z.eqb 58) h) with true; auto.
    symmetry. apply existsb_exists. exists 58. auto.
  - intros (_ & _ & D & _) _. unfold ex_gai. rewrite (quad_ok h a H), D.
    replace (existsb (Z.eqb 58) h) with false; [destruct (pton ex_lib h); auto|].
    destruct (existsb (Z.eqb 58) h) eqn:E; auto. apply existsb_exists in E. destruct E as (x & IX & EX). assert (x = 58) as -> by lia.
    apply (quad_no h a 58 H) in IX; [destruct IX|lia|lia].
Qed.
Ltac dec_solve := split; [discriminate|]; split; [repeat (apply Forall_cons; [cbn; lia|]); apply Forall_nil|]; split; [reflexivity|cbn; intros; try reflexivity; try discriminate].
Lemma ex_quad1 : is_quad (str "10.0.0.1") [10; 0; 0; 1].
Proof.
  exists (str "10"), (str "0"), (str "0"), (str "1"), 10, 0, 0, 1. split; [reflexivity|]. split; [reflexivity|].
  split; [dec_solve|]. split; [dec_solve|]. split; [dec_solve|]. split; [dec_solve|]. lia.
Qed.
Lemma ex_quad2 : is_quad (str "10.0.0.2") [10; 0; 0; 2].
Proof.
  exists (str "10"), (str "0"), (str "0"), (str "2"), 10, 0, 0, 2. split; [reflexivity|]. split; [reflexivity|].
  split; [dec_solve|]. split; [dec_solve|]. split; [dec_solve|]. split; [dec_solve|]. lia.
Qed.
Lemma ex_asked : asked ex_lib (str "10.0.0.1:1234") (str "10.0.0.2:80") (str "SCTP") ex_inner.
Proof.
  split; [exists 1234; split; [|reflexivity]|split; [exists 80; split; [|reflexivity]|]].
  - split; [cbn; lia|]. split; [lia|]. right. exists (str "10.0.0.1"), (str "1234"), [10;0;0;1]. split; [reflexivity|]. split; [exact ex_quad1|].
    split; [reflexivity|dec_solve].
  - split; [cbn; lia|]. split; [lia|]. right. exists (str "10.0.0.2"), (str "80"), [10;0;0;2]. split; [reflexivity|]. split; [exact ex_quad2|].
    split; [reflexivity|dec_solve].
  - exists (str "sctp"). split; [|left; split; reflexivity]. cbn. repeat (apply Forall2_cons; [lia|]). apply Forall2_nil.
Qed.
Lemma ex_src : endpoint ex_lib (str "10.0.0.1:1234") (mapped [10;0;0;1]) 1234.
Proof.
  split; [cbn; lia|]. split; [lia|]. right. exists (str "10.0.0.1"), (str "1234"), [10;0;0;1]. split; [reflexivity|]. split; [exact ex_quad1|].
  split; [reflexivity|dec_solve].
Qed.
Definition ex_bracket : chars := str "[10.0.0.2]:80".
Lemma bracket_src_refuted L gai dst proto mode shm : gai_ok L gai -> cmdFwmark gai ex_bracket dst proto mode shm = UB.
Proof.
  intros G. apply (bracket_src L gai (str "10.0.0.2") (str "80") [10;0;0;2] 80); auto; [exact ex_quad2|dec_solve|lia|cbn; lia].
Qed.
(** The destination printed for is 10.0.0.1, the source. *)
Definition ex_asked_flow : flow := mkFlow (mapped [10;0;0;1]) (mapped [10;0;0;2]) 6 [4;210] [0;80].
Lemma bracket_dst_refuted L gai mode m : pton_ok L -> gai_ok L gai -> mode_text mode m ->
  exists x, cmdFwmark gai (str "10.0.0.1:1234") ex_bracket (Some (str "tcp")) mode None = Ok (mkOut x None) /\ x <> flow_hash m ex_asked_flow.
Proof.
  intros PT G MT. exists (flow_hash m (mkFlow (mapped [10;0;0;1]) (mapped [10;0;0;1]) 6 [4;210] [0;80])). split.
  - assert (ES : endpoint L (str "10.0.0.1:1234") (mapped [10;0;0;1]) 1234).
    { split; [cbn; lia|]. split; [lia|]. right. exists (str "10.0.0.1"), (str "1234"), [10;0;0;1]. split; [reflexivity|]. split; [exact ex_quad1|].
      split; [reflexivity|dec_solve]. }
    apply (bracket_dst L gai _ _ 1234 (str "10.0.0.2") (str "80") [10;0;0;2] 80 _ mode None PT G ES) with (pr := str "tcp"); auto;
      [exact ex_quad2|dec_solve|lia|cbn; lia|].
    exists (str "tcp"). split; [|right; left; split; reflexivity]. repeat (apply Forall2_cons; [auto|]). apply Forall2_nil.
  - vm_compute. discriminate.
Qed.
Lemma ex_dst : endpoint ex_lib (str "10.0.0.2:80") (mapped [10;0;0;2]) 80.
Proof.
  split; [cbn; lia|]. split; [lia|]. right. exists (str "10.0.0.2"), (str "80"), [10;0;0;2]. split; [reflexivity|]. split; [exact ex_quad2|].
  split; [reflexivity|dec_solve].
Qed.
Lemma ex_flow_target : mode_text (Some (str "4")) (h_mode (ex_h false)) /\ exists ans a, run ex_lib [] ex_udp_ops = Ok (c48_set, ans) /\
  current ex_udp_ops ans (str "a") = Some a /\ a_ref a <> 0 /\ accepts_packet (ex_udp_rules (str "a")) ex_inner ex_native 20.
Proof.
  split; [split; [dec_solve|cbn; lia]|]. exists [Defined None; Defined None], (cmdArgs (sctpcmd (str "a") (str "t1") 10 None 9899) (str "a") 1).
  split; [vm_compute; reflexivity|]. split; [reflexivity|]. split; [discriminate|].
  unfold ex_udp_rules, accepts_packet, accepts_addr. change (streq (str "a") (str "#a")) with false. cbv iota.
  cbn [r_dsts r_srcs r_protocols r_dports r_sports r_match all_or]. split; [auto|]. split; [cbn; auto|]. auto.
Qed.
Definition ex_other_part : list Z := [69;0;0;21; 1;2;0;7; 64;17;0;0; 10;0;0;1; 10;0;0;2; 5].
Lemma ex_tier : exists o, cmdFwmark ex_gai (str "10.0.0.1:1234") (str "10.0.0.2:80") None None (Some (Some (ex_mem 1))) = Ok o /\
  endpoint ex_lib (str "10.0.0.1:1234") (mapped [10;0;0;1]) 1234 /\ endpoint ex_lib (str "10.0.0.2:80") (mapped [10;0;0;2]) 80 /\
  part 2048 ex_other_part false (mapped [10;0;0;1]) (mapped [10;0;0;2]) [1;2] /\ fragment 0 2048 ex_other_part.
Proof.
  eexists. split; [vm_compute; reflexivity|]. split; [exact ex_src|]. split; [exact ex_dst|]. split.
  - left. split; [reflexivity|]. exists [10;0;0;1], [10;0;0;2]. split; [reflexivity|]. split; [reflexivity|].
    split; [reflexivity|]. split; [reflexivity|]. exists 20, 17, false, 7. split.
    + unfold ipv4_header. split; [reflexivity|]. split; [reflexivity|]. split; [exists 69; split; [at_solve|reflexivity]|]. hdr_solve.
    + split; [exists 0, 7; hdr_solve|]. split; [at_solve|lia].
  - eexists _, _, _. split; [vm_compute; reflexivity|discriminate].
Qed.
