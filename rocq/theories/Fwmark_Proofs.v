(** The fwmark command (C49). *)
From Coq Require Import String.
From Verif Require Import Base Lists Cstr_Model Util_Proofs IpKey_Model IpKey_Spec IpKey_Proofs Maglev_Model Rangeset_Spec Match_Spec Match_Proofs
  Flow_Model Flow_Spec Flow_Proofs FlowLb_Model FlowLb4_Proofs Lb_Model Lb_Spec Lb3_Proofs Fwmark_Model Fwmark_Spec.

(** ** Texts *)
Lemma atoi_dec p n : is_dec p n -> n <= 2147483647 -> atoi p = n /\ 0 <= n.
Proof.
  intros (D1 & D2 & D3 & D4) L. assert (V0 : 0 <= n) by (rewrite <- D3; apply fold_dec_nonneg; [exact D2|lia]). split; auto.
  destruct p as [|c d]; [congruence|]. pose proof D2 as D2'. apply Forall_cons_iff in D2'. destruct D2' as (C & D2').
  unfold atoi, strtol. cbn [skip]. replace (isspace c) with false by (unfold isspace; lia).
  replace (c =? 45) with false by lia. replace (c =? 43) with false by lia. change (10 =? 0) with false. cbv iota.
  pose proof (digits_all 10 (fun c => c - 48) (c :: d) 0 0 []) as DA. rewrite app_nil_r in DA. rewrite DA; [|..].
  - rewrite D3. replace (0 + zlen (c :: d) =? 0) with false by (unfold zlen; cbn [length]; lia). cbn [fst].
    rewrite clamp by (unfold LONG_MAX; lia). unfold s32, u32. rewrite Z.mod_small by (unfold two32; lia).
    destruct (n <? _) eqn:E; auto. unfold two32 in *. lia.
  - eapply Forall_impl; [|exact D2]. intros x X. exists (x - 48). cbn beta in X. unfold digit. replace ((48 <=? x) && (x <=? 57)) with true by lia.
    split; auto. split; [lia|auto].
  - exact I.
Qed.
Lemma dec_no p n c : is_dec p n -> c < 48 \/ 57 < c -> ~ In c p.
Proof. intros (_ & D & _) C H. rewrite Forall_forall in D. specialize (D c H). lia. Qed.
Lemma quad_no h q c : is_quad h q -> c <> 46 -> c < 48 \/ 57 < c -> ~ In c h.
Proof.
  intros (a & b & c' & d & x & y & z & w & _ & -> & A & B & C & D & _) N R H. change (str ".") with [46] in H.
  repeat (apply in_app_or in H; destruct H as [H|H]); try (destruct H as [H|[]]; lia);
    [apply (dec_no a x c A R H)|apply (dec_no b y c B R H)|apply (dec_no c' z c C R H)|apply (dec_no d w c D R H)].
Qed.
Lemma split_at_app c a b : ~ In c a -> split_at c (a ++ c :: b) = Some (a, b).
Proof.
  induction a as [|x a IH]; intros N; cbn [split_at app]; [rewrite Z.eqb_refl; auto|].
  destruct (Z.eqb_spec x c) as [->|NE]; [exfalso; apply N; left; auto|]. rewrite IH; auto. intros H. apply N. right. auto.
Qed.
Lemma split_last_none c b : ~ In c b -> split_last c b = None.
Proof.
  induction b as [|x b IH]; intros N; cbn [split_last]; auto. rewrite IH by (intros H; apply N; right; auto).
  destruct (Z.eqb_spec x c) as [->|]; auto. exfalso. apply N. left. auto.
Qed.
Lemma split_last_app c a b : ~ In c b -> split_last c (a ++ c :: b) = Some (a, b).
Proof.
  intros N. induction a as [|x a IH]; cbn [split_last app]; [rewrite (split_last_none c b N), Z.eqb_refl; auto|]. rewrite IH. auto.
Qed.
Lemma parse_bracket gai h p n r : ~ In 93 h -> is_dec p n -> n <= 65535 -> gai h p = r ->
  parseTcp gai (str "[" ++ h ++ str "]:" ++ p) = r.
Proof.
  intros N P L G. change (str "[" ++ h ++ str "]:" ++ p) with (91 :: (h ++ 93 :: 58 :: p)). unfold parseTcp. rewrite (split_at_app 93 h _ N).
  destruct (atoi_dec p n P) as (-> & N0); [lia|]. replace ((n <? 0) || (65535 <? n)) with false by lia. auto.
Qed.
Lemma memcpy_ok buf b : zlen b <= 28 -> memcpy buf b = Ok (map Some b ++ skipn (length b) buf).
Proof. intros H. unfold memcpy. destruct (Z.ltb_spec 28 (zlen b)); [lia|auto]. Qed.
Lemma adr_in6 L gai s a n buf : pton_ok L -> gai_ok L gai -> endpoint L s a n -> length buf = 28%nat ->
  adrParse gai s buf = Ok (map Some (in6_bytes a n)) /\ length a = 16%nat /\ 0 <= n.
Proof.
  intros (PT & PM) (G6 & _) (LS & LN & HT) LB.
  assert (K : forall h p t, In 58 h -> ~ In 93 h -> pton L h = Some a -> is_dec p n -> t = str "[" ++ h ++ str "]:" ++ p ->
     (match parseTcp gai t with None => Die | Some b => memcpy buf b end) = Ok (map Some (in6_bytes a n)) /\ length a = 16%nat /\ 0 <= n).
  { intros h p t I58 N93 PA DP ->. destruct (PT _ _ PA) as (LA & _).
    rewrite (parse_bracket gai h p n (Some (in6_bytes a n)) N93 DP LN (G6 h p a n I58 PA DP LN)).
    assert (LI : length (in6_bytes a n) = 28%nat) by (unfold in6_bytes, port_bytes; rewrite !app_length; cbn [length]; rewrite LA; auto).
    rewrite memcpy_ok by (unfold zlen; lia). rewrite LI, <- LB, skipn_all, app_nil_r. split; auto. split; auto.
    apply (atoi_dec p n DP); lia. }
  unfold adrParse. destruct (Z.ltb_spec 60 (zlen s)); [lia|]. destruct HT as [(h & p & ES & I58 & N93 & PA & DP)|(h & p & q & ES & Q & -> & DP)].
  - replace (existsb (Z.eqb 91) s) with true; [|rewrite ES; reflexivity]. cbn [obind]. apply (K h p); auto.
  - assert (NB : existsb (Z.eqb 91) s = false).
    { destruct (existsb (Z.eqb 91) s) eqn:E; auto. apply existsb_exists in E. destruct E as (x & IX & EX). assert (x = 91) as -> by lia.
      rewrite ES in IX. change (str ":") with [58] in IX. apply in_app_or in IX. destruct IX as [IX|[IX|IX]]; [|lia|].
      - exfalso. apply (quad_no h q 91 Q) in IX; auto; lia.
      - exfalso. apply (dec_no p n 91 DP) in IX; auto. lia. }
    rewrite NB. rewrite ES. change (str ":" ++ p) with (58 :: p). rewrite split_last_app by (apply (dec_no p n 58 DP); lia). cbn [obind].
    apply (K (str "::ffff:" ++ h) p); auto.
    + left. auto.
    + intros IX. apply in_app_or in IX. destruct IX as [IX|IX]; [cbn in IX; lia|]. apply (quad_no h q 93 Q) in IX; auto; lia.
Qed.
Lemma determinate_some l : determinate (map Some l) = Ok l.
Proof. induction l as [|x l IH]; cbn; auto. rewrite IH. auto. Qed.
Lemma in6_addr a n : length a = 16%nat -> sin6_addr (map Some (in6_bytes a n)) = Ok a /\ sin6_port (map Some (in6_bytes a n)) = Ok (port_bytes n).
Proof.
  intros LA. unfold sin6_addr, sin6_port. rewrite !skipn_map, !firstn_map, !determinate_some. split; f_equal.
  change (skipn 8 (in6_bytes a n)) with (a ++ [0;0;0;0]). rewrite <- LA. rewrite firstn_app, firstn_all, Nat.sub_diag, firstn_O, app_nil_r. auto.
Qed.
Lemma proto_ok s p : proto_text s p -> parseProto s = p /\ p <> 0.
Proof.
  intros (w & A & N). unfold parseProto, caseeq.
  destruct N as [(-> & ->)|[(-> & ->)|(-> & ->)]]; rewrite (lower_case _ _ A) by (cbn; repeat (apply Forall_cons; [lia|]); apply Forall_nil);
    (split; [reflexivity|lia]).
Qed.
Lemma mode_ok m n : mode_text m n -> u32 (atoi (match m with None => str "1" | Some t => t end)) = n.
Proof.
  destruct m as [t|]; cbn [mode_text]; [|intros ->; reflexivity]. intros (D & L). destruct (atoi_dec t n D L) as (-> & N).
  unfold u32. rewrite Z.mod_small; auto. unfold two32. lia.
Qed.

(** ** What is printed *)
Lemma fwmark_hash L gai src dst proto mode shm f sn dn p m : pton_ok L -> gai_ok L gai ->
  endpoint L src (fl_src f) sn -> endpoint L dst (fl_dst f) dn -> fl_sport f = port_bytes sn -> fl_dport f = port_bytes dn ->
  proto_text p (fl_proto f) -> proto = Some p -> mode_text mode m ->
  cmdFwmark gai src dst proto mode shm = printMark (flow_hash m f) shm.
Proof.
  intros PT G ES ED PS PD PR -> MT. unfold cmdFwmark.
  destruct (adr_in6 L gai src _ sn uninit PT G ES eq_refl) as (-> & LS & S0). cbn [obind].
  destruct (in6_addr (fl_src f) sn LS) as (-> & ->). cbn [obind].
  destruct (adr_in6 L gai dst _ dn (map Some (in6_bytes (fl_src f) sn)) PT G ED) as (-> & LD & D0).
  { rewrite map_length. unfold in6_bytes, port_bytes. rewrite !app_length. cbn [length]. rewrite LS. auto. }
  cbn [obind]. destruct (in6_addr (fl_dst f) dn LD) as (-> & ->). cbn [obind].
  destruct (proto_ok p _ PR) as (-> & NZ). rewrite (proj2 (Z.eqb_neq _ _) NZ). rewrite (mode_ok mode m MT). rewrite <- PS, <- PD.
  f_equal. unfold hashKey, flow_hash, flow_key. cbn [k_src k_dst k_id app nth skipn]. replace (fl_proto f + 256 * 0) with (fl_proto f) by lia. auto.
Qed.
Lemma fwmark_addresses L gai src dst mode shm a b sn dn : pton_ok L -> gai_ok L gai ->
  endpoint L src a sn -> endpoint L dst b dn -> cmdFwmark gai src dst None mode shm = printMark (djb2 (a ++ b)) shm.
Proof.
  intros PT G ES ED. unfold cmdFwmark.
  destruct (adr_in6 L gai src _ sn uninit PT G ES eq_refl) as (-> & LS & S0). cbn [obind].
  destruct (in6_addr a sn LS) as (-> & ->). cbn [obind].
  destruct (adr_in6 L gai dst _ dn (map Some (in6_bytes a sn)) PT G ED) as (-> & LD & D0).
  { rewrite map_length. unfold in6_bytes, port_bytes. rewrite !app_length. cbn [length]. rewrite LS. auto. }
  cbn [obind]. destruct (in6_addr b dn LD) as (-> & ->). reflexivity.
Qed.
Lemma print_mark hash t : table_ok t -> exists i ai fw, printMark hash (Some (Some t)) = Ok (mkOut hash (Some (i, ai, fw))) /\
  i = hash mod mM t /\ znth (mlookup t) i = Some ai /\ forall none, mark_or none (table_mark t hash) = if fw <? 0 then none else fw.
Proof.
  intros (M & L & A). destruct (znth_in_range _ (mlookup t) (hash mod mM t)) as (ai & EI). { rewrite L. apply Z.mod_pos_bound. auto. }
  unfold printMark. destruct (Z.eqb_spec (mM t) 0); [lia|]. unfold aget. rewrite EI. cbn [obind]. destruct (Z.leb_spec 0 ai) as [N|N].
  - specialize (A ai (znth_In _ _ _ _ EI)). destruct (znth_in_range _ (mactive t) ai) as (fw & EF); [lia|]. rewrite EF. cbn [obind].
    exists (hash mod mM t), ai, fw. split; auto. split; auto. split; auto. intros none. apply (mark_some t hash ai fw none EI N EF).
  - cbn [obind]. exists (hash mod mM t), ai, (-1). split; auto. split; auto. split; auto. intros none. rewrite (mark_none t hash ai none EI N). auto.
Qed.
Lemma print_inv hash t o : printMark hash (Some (Some t)) = Ok o -> exists i ai fw, o = mkOut hash (Some (i, ai, fw)) /\
  forall none, mark_or none (table_mark t hash) = if fw <? 0 then none else fw.
Proof.
  unfold printMark. destruct (mM t =? 0); [discriminate|]. unfold aget. destruct (znth (mlookup t) _) as [ai|] eqn:EI; [|discriminate]. cbn [obind].
  destruct (Z.leb_spec 0 ai) as [N|N].
  - destruct (znth (mactive t) ai) as [fw|] eqn:EF; [|discriminate]. cbn [obind]. intros H. injection H as <-.
    exists (hash mod mM t), ai, fw. split; auto. intros none. apply (mark_some t hash ai fw none EI N EF).
  - cbn [obind]. intros H. injection H as <-. exists (hash mod mM t), ai, (-1). split; auto. intros none. rewrite (mark_none t hash ai none EI N). auto.
Qed.
