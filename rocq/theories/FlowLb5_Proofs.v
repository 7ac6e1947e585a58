(** Refused requests (C44), encapsulated packets (C42). *)
From Coq Require Import String Permutation.
From Verif Require Import Base Lists Cstr_Model Util_Proofs IpKey_Model IpKey_Spec Maglev_Model Flow_Model Flow_Spec Flow_Proofs Flow2_Proofs
  Flow3_Proofs Remote_Model FlowLb_Model FlowLb_Spec FlowLb_Proofs FlowLb2_Proofs FlowLb4_Proofs.
From Verif Require Import IpKey_Proofs IpKey3_Proofs.
From Verif Require Frag_Model Conntrack2_Proofs.

(** ** The state is restored by lock and release *)
Lemma zupd_twice {A} (l : list A) i x y : zupd (zupd l i x) i y = zupd l i y.
Proof.
  unfold zupd. destruct (i <? 0); auto. generalize (Z.to_nat i). intros n. revert n. induction l as [|z l IH]; intros [|n]; cbn; auto. rewrite IH. auto.
Qed.
Lemma zupd_same {A} (l : list A) i x : znth l i = Some x -> zupd l i x = l.
Proof.
  unfold znth, zupd. destruct (i <? 0); auto. generalize (Z.to_nat i). intros n. revert n.
  induction l as [|z l IH]; intros [|n] H; cbn in *; auto; [congruence|]. rewrite IH; auto.
Qed.
Lemma put_twice s a x y : put (put s a x) a y = put s a y.
Proof. unfold put, set_objs. cbn [t_objs t_list t_set t_ft t_shm t_mem t_tun]. rewrite zupd_twice. auto. Qed.
Lemma put_same s a o : deref s a = Some o -> put s a o = s.
Proof.
  unfold deref, put, set_objs. destruct (znth (t_objs s) (a - 1)) as [x|] eqn:E; [|discriminate]. destruct (lb_freed x); [discriminate|].
  intros H. assert (x = o) as -> by congruence. rewrite zupd_same by auto. destruct s; auto.
Qed.
Lemma lock_release l s a o k : deref s a = Some o -> 1 <= lb_ref o < 2147483647 ->
  exists s', lockRef s a = Some s' /\ t_set s' = t_set s /\
    runp (release l a k) s' = after [Gave a] (runp k s).
Proof.
  intros D R. assert (N : a <> 0) by (intros ->; assert (K : live s 0) by (exists o; auto); apply live_range in K; lia).
  unfold lockRef. rewrite D. set (o' := mkLb _ _ _ _). exists (put s a o'). split; auto. split; auto.
  assert (E : s32 (lb_ref o + 1) = lb_ref o + 1) by (apply s32_small; lia).
  assert (F : lb_freed o = false) by apply (deref_freed s a o D).
  rewrite (run_release l a k (put s a o') o'); auto.
  - rewrite put_twice. unfold o'. cbn [lb_ref lb_target lb_region lb_freed]. rewrite E. replace (lb_ref o + 1 - 1) with (lb_ref o) by lia.
    rewrite <- (put_same s a o D) at 2. destruct o; auto.
  - rewrite (deref_put s a o' a o D), Z.eqb_refl. unfold o'. cbn [lb_freed]. rewrite F. auto.
  - unfold o'. cbn [lb_ref]. rewrite E. lia.
Qed.

(** No object for the target and no shared memory *)
Definition unavailable (s : state) (t : option chars) : Prop :=
  match t with
  | None => True
  | Some t => Forall (fun a => exists o, deref s a = Some o /\ lb_target o <> t) (t_list s) /\ t_shm s t = None
  end.
Definition not_listed (s : state) (t : chars) : Prop :=
  Forall (fun a => exists o, deref s a = Some o /\ lb_target o <> t) (t_list s).
Lemma search_absent s t l : Forall (fun a => exists o, deref s a = Some o /\ lb_target o <> t) l -> search s l t = Absent.
Proof.
  induction 1 as [|a l (o & D & N) H IH]; cbn [search]; auto. rewrite D. destruct (streq (lb_target o) t) eqn:E; auto.
  apply streq_eq in E. congruence.
Qed.
Lemma find_unavailable s t k : unavailable s t -> runp (findOrCreate t k) s = runp (k 0) s.
Proof.
  intros U. unfold findOrCreate. destruct t as [t|]; auto. destruct U as (U1 & U2). rewrite (run_act _ _ s [] s (k 0)); [apply after_nil|].
  rewrite (search_absent s t _ U1), U2. auto.
Qed.
Lemma find_new s t r k : not_listed s t -> t_shm s t = Some r ->
  let a := zlen (t_objs s) + 1 in
  runp (findOrCreate (Some t) k) s =
  after [Took a] (runp (k a) (set_list (set_objs s (t_objs s ++ [mkLb t 1 r false])) (a :: t_list s))).
Proof. intros U H. apply run_act. rewrite (search_absent s t _ U), H. auto. Qed.

Lemma after_inv ev x r s e : after ev x = Some (r, s, e) -> exists e', x = Some (r, s, e').
Proof. destruct x as [[[r' s'] e']|]; cbn; [|discriminate]. intros H. exists e'. congruence. Qed.

(** The flow that has the name of the request, with its object *)
Definition existing (c : flowcmd) (s : state) (f : frec) (o : lbo) : Prop :=
  exists n, c_name c = Some n /\ findName (t_set s) n = Some f /\ deref s (f_ref f) = Some o /\ 1 <= lb_ref o < 2147483647.
Definition fresh_name (c : flowcmd) (s : state) : Prop := exists n, c_name c = Some n /\ findName (t_set s) n = None.

Lemma define_refused L set a e set' : flowDefine L set a = Ok (Some e, set') -> set' = set /\ makeFlow L a = Ok (inl e).
Proof.
  unfold flowDefine. destruct (makeFlow L a) as [[x|f]| | |]; cbn [obind]; try discriminate.
  - intros H. split; congruence.
  - destruct (sortFlows _ _); cbn [obind]; discriminate.
Qed.
Lemma set_flows_same s : set_flows s (t_set s) = s.
Proof. destruct s; auto. Qed.
Lemma run_define L a k s r s' ev : runp (define L a k) s = Some (r, s', ev) ->
  (exists e, makeFlow L a = Ok (inl e) /\ r = Reply e /\ s' = s) \/
  (exists set ev', flowDefine L (t_set s) a = Ok (None, set) /\ runp k (set_flows s set) = Some (r, s', ev')).
Proof.
  unfold define. intros H. destruct (flowDefine L (t_set s) a) as [[[e|] set]| | |] eqn:E; cbn [runp] in H; rewrite E in H; cbn [runr] in H; try discriminate.
  - left. apply define_refused in E. destruct E as (-> & E). exists e. rewrite set_flows_same in H. cbn [runp] in H. split; auto. split; congruence.
  - right. apply after_inv in H. destruct H as (e' & H). eauto.
Qed.

Lemma refused_unchanged L c s m s' ev : runp (cmd_set L c) s = Some (Reply m, s', ev) -> m <> "OK"%string ->
  (fresh_name c s /\ unavailable s (c_target c)) \/
  (exists f o, existing c s f o /\
     (f_udpencap f <> c_udpencap c \/ (c_target c <> Some (lb_target o) /\ unavailable s (c_target c)) \/
      (c_target c = Some (lb_target o) /\ c_udpencap c = 0))) ->
  s' = s.
Proof.
  intros H NOK [((n & EN & EF) & U)|(f & o & (n & EN & EF & D & R) & C)].
  - unfold cmd_set in H. cbn [runp] in H. rewrite EN, EF in H. cbn [runr] in H. rewrite find_unavailable in H by auto.
    unfold setFlow in H. cbn [Z.eqb runp] in H. congruence.
  - unfold cmd_set in H. cbn [runp] in H. rewrite EN, EF in H.
    match type of H with context [release Quiet (f_ref f) ?k] => destruct (lock_release Quiet s (f_ref f) o k D R) as (s1 & EL & ES & RL) end.
    rewrite EL in H. cbn [runr] in H. rewrite RL in H. apply after_inv in H. destruct H as (e1 & H). apply after_inv in H. destruct H as (e2 & H).
    destruct (Z.eqb_spec (f_udpencap f) (c_udpencap c)) as [EU|NU]; cbn [negb] in H; [|cbn [runp] in H; congruence].
    destruct C as [C|[(C1 & C2)|(C1 & C2)]]; [congruence| |].
    + destruct (c_target c) as [t|]; [|discriminate]. cbn [runp] in H. rewrite D in H.
      destruct (streq t (lb_target o)) eqn:EQ; [apply streq_eq in EQ; congruence|].
      cbn [runr] in H. rewrite find_unavailable in H by auto. cbn [Z.eqb runp] in H. congruence.
    + rewrite C1 in H. cbn [runp] in H. rewrite D in H. assert (EQ : streq (lb_target o) (lb_target o) = true) by (apply streq_eq; auto).
      rewrite EQ in H. cbn [runr] in H. apply after_inv in H. destruct H as (e3 & H). unfold setFlow in H.
      destruct (f_ref f =? 0); [cbn [runp] in H; congruence|]. rewrite EN, C2 in H. cbn [Z.eqb] in H.
      apply run_define in H. destruct H as [(e & _ & _ & ->)|(set & ev' & _ & H)]; auto. cbn [runp] in H. congruence.
Qed.

(** ** A refused new flow *)
(** Refusals do not depend on the reference. *)
Lemma makeFlow_ref L c n x y e : makeFlow L (cmdArgs c n x) = Ok (inl e) -> makeFlow L (cmdArgs c n y) = Ok (inl e).
Proof.
  unfold makeFlow. cbn [cmdArgs a_name a_protocols a_dports a_sports a_dsts a_srcs a_match a_priority a_ref a_udpencap].
  destruct (MAX_NAME <=? zlen n); auto.
  repeat (match goal with |- context [obind ?x _] => destruct x as [[?|?]| | |]; cbn [obind]; auto end). discriminate.
Qed.
Lemma new_leaks L c s n t r e : c_name c = Some n -> findName (t_set s) n = None -> c_target c = Some t ->
  not_listed s t -> t_shm s t = Some r -> c_udpencap c = 0 -> makeFlow L (cmdArgs c n 0) = Ok (inl e) ->
  let a := zlen (t_objs s) + 1 in
  exists s', runp (cmd_set L c) s = Some (Reply e, s', [Took a]) /\ t_set s' = t_set s /\ ~ live s a /\ live s' a.
Proof.
  intros EN EF ET NL SH U0 RF a. unfold cmd_set. cbn [runp]. rewrite EN, EF, ET. cbn [runr].
  rewrite (find_new s t r (setFlow L c) NL SH). fold a. set (s1 := set_list _ _).
  assert (A0 : a =? 0 = false) by (pose proof (zlen_nonneg _ (t_objs s)); lia).
  exists s1. split; [|split; [auto|split]].
  - unfold setFlow. rewrite A0, EN, U0. cbn [Z.eqb]. unfold define. cbn [runp]. unfold flowDefine.
    rewrite (makeFlow_ref L c n 0 a e RF). cbn [obind runr runp]. rewrite set_flows_same. reflexivity.
  - intros K. apply live_range in K. lia.
  - exists (mkLb t 1 r false). unfold deref. unfold s1. cbn [set_list set_objs t_objs]. unfold a. replace (zlen (t_objs s) + 1 - 1) with (zlen (t_objs s)) by lia.
    rewrite znth_mid. auto.
Qed.

(** ** A refused request for another target *)
Lemma refused_dangling L c s n f o t r e : c_name c = Some n -> findName (t_set s) n = Some f -> deref s (f_ref f) = Some o ->
  lb_ref o = 1 -> Forall (live s) (t_list s) ->
  c_target c = Some t -> t <> lb_target o -> not_listed s t -> t_shm s t = Some r ->
  c_udpencap c = 0 -> f_udpencap f = 0 -> makeFlow L (cmdArgs c n 0) = Ok (inl e) ->
  exists s' ev, runp (cmd_set L c) s = Some (Reply e, s', ev) /\ t_set s' = t_set s /\ ~ live s' (f_ref f).
Proof.
  intros EN EF D R LV ET TN NL SH U0 UF RF. unfold cmd_set. cbn [runp]. rewrite EN, EF, ET.
  match goal with |- context [release Quiet (f_ref f) ?k] => destruct (lock_release Quiet s (f_ref f) o k D) as (s1 & EL & ES & RL); [lia|] end.
  rewrite EL. cbn [runr]. rewrite RL. rewrite UF, U0. cbn [Z.eqb negb runp]. rewrite D.
  destruct (streq t (lb_target o)) eqn:EQ; [apply streq_eq in EQ; congruence|]. cbn [runr].
  rewrite (find_new s t r _ NL SH). set (a := zlen (t_objs s) + 1). set (s2 := set_list _ _).
  assert (A0 : a =? 0 = false) by (pose proof (zlen_nonneg _ (t_objs s)); lia). rewrite A0.
  assert (LR : 1 <= f_ref f <= zlen (t_objs s)) by (apply live_range; exists o; auto).
  assert (D2 : forall b, b <> a -> deref s2 b = deref s b).
  { intros b NB. unfold deref, s2. cbn [set_list set_objs t_objs].
    destruct (Z_lt_ge_dec (b - 1) (zlen (t_objs s))) as [LT|GE].
    - unfold znth. destruct (b - 1 <? 0) eqn:EB; auto. rewrite nth_error_app1; auto. unfold zlen in LT. lia.
    - rewrite !znth_out; auto; [right; lia|]. right. unfold a, zlen in *. rewrite app_length. cbn [length]. lia. }
  assert (DA : deref s2 a = Some (mkLb t 1 r false)).
  { unfold deref. unfold s2. cbn [set_list set_objs t_objs]. unfold a. replace (zlen (t_objs s) + 1 - 1) with (zlen (t_objs s)) by lia.
    rewrite znth_mid. auto. }
  unfold release. rewrite (proj2 (Z.eqb_neq (f_ref f) 0)) by lia. cbn [runp]. rewrite (D2 (f_ref f)) by lia. rewrite D.
  cbv zeta. rewrite R. change (s32 (1 - 1)) with 0. cbn [Z.ltb Z.eqb Z.compare runr runp].
  set (s3 := put s2 (f_ref f) _). assert (D2f : deref s2 (f_ref f) = Some o) by (rewrite D2 by lia; auto).
  assert (F : lb_freed o = false) by apply (deref_freed s _ o D).
  assert (D3 : forall b, live s3 b <-> live s2 b) by (intros b; apply (live_put s2 (f_ref f) _ b o D2f); cbn [lb_freed]; auto).
  assert (D3f : exists o3, deref s3 (f_ref f) = Some o3) by (apply D3; exists o; auto). destruct D3f as (o3 & D3f). rewrite D3f.
  assert (UL : exists l', unlink s3 (t_list s3) (f_ref f) = Some l').
  { assert (LV3 : forall x, In x (t_list s3) -> live s3 x).
    { intros x HX. apply D3. change (t_list s3) with (a :: t_list s) in HX. destruct HX as [<-|HX]; [exists (mkLb t 1 r false); auto|].
      rewrite Forall_forall in LV. specialize (LV x HX). assert (x <> a) by (apply live_range in LV; lia). unfold live. rewrite D2; auto. }
    revert LV3. generalize (t_list s3). induction l as [|x l IH]; intros LV3; cbn [unlink]; [eauto|].
    destruct (LV3 x (or_introl eq_refl)) as (ox & ->). destruct (x =? f_ref f); [eauto|]. destruct IH as (l' & ->); [intros; apply LV3; right; auto|]. eauto. }
  destruct UL as (l' & ->). cbn [runr runp]. rewrite (deref_ext s3 (set_list s3 l') (f_ref f) eq_refl), D3f. cbn [runr].
  set (s5 := put _ _ _).
  assert (D5 : deref s5 (f_ref f) = None).
  { unfold s5. rewrite (deref_put (set_list s3 l') (f_ref f) _ (f_ref f) o3); [|rewrite (deref_ext s3 (set_list s3 l') _ eq_refl); auto]. rewrite Z.eqb_refl. auto. }
  unfold setFlow. rewrite A0, EN, U0. cbn [Z.eqb]. unfold define. cbn [runp]. unfold flowDefine. rewrite (makeFlow_ref L c n 0 a e RF).
  cbn [obind runr runp after]. rewrite set_flows_same. eexists s5, _. split; [reflexivity|]. split; [reflexivity|]. intros (x & K). congruence.
Qed.

(** ** Encapsulated packets *)
Lemma flowMatch_packet ping k f eth p q : f_match f = None -> flowMatch ping k f eth p = flowMatch ping k f eth q.
Proof. intros E. unfold flowMatch. rewrite E. auto. Qed.
Lemma flowLookup_packet ping set k eth p q : Forall (fun f => f_match f = None) set -> forall u, flowLookup ping set k eth p u = flowLookup ping set k eth q u.
Proof.
  induction 1 as [|f set E H IH]; intros u; cbn [flowLookup]; auto. rewrite (flowMatch_packet ping k f eth p q E).
  destruct (flowMatch ping k f eth q) as [v| | |]; cbn [obind]; auto. destruct (match v with NoMatch => 0 | _ => f_ref f end =? 0); auto.
Qed.
Lemma lookup_companions k eth p enc set : (forall f, In f set -> exists v, flowMatch false k f eth p = Ok v /\ (v <> NoMatch -> v = Match /\ f_ref f = 0 /\ f_udpencap f = enc)) ->
  (exists f v, In f set /\ flowMatch false k f eth p = Ok v /\ v <> NoMatch) \/ False ->
  forall u, flowLookup false set k eth p u = Ok (0, enc).
Proof.
  intros H [E|[]].
  assert (K : forall u, flowLookup false set k eth p u = Ok (0, enc) \/ (flowLookup false set k eth p u = Ok (0, u) /\ forall f, In f set -> flowMatch false k f eth p = Ok NoMatch)).
  { clear E. induction set as [|f set IH]; intros u; cbn [flowLookup]; [right; split; auto; intros f []|].
    destruct (H f (or_introl eq_refl)) as (v & EV & HV). rewrite EV. cbn [obind].
    destruct v.
    - cbn [Z.eqb]. destruct (IH (fun g G => H g (or_intror G)) u) as [X|(X & Y)]; auto. right. split; auto. intros g [<-|G]; auto.
    - destruct HV as (HV & _); [discriminate|discriminate].
    - destruct HV as (_ & -> & ->); [discriminate|]. cbn [Z.eqb]. destruct (IH (fun g G => H g (or_intror G)) enc) as [X|(X & Y)]; auto. }
  intros u. destruct (K u) as [X|(_ & Y)]; auto. exfalso. destruct E as (f & v & F & V & N). rewrite (Y f F) in V. congruence.
Qed.

Lemma encap_same h now done eth d1 d2 f enc l4 sp dp s ops ans (R : chars -> rule) L :
  libc_ok L -> run L [] ops = Ok (t_set s, ans) ->
  (forall n a, current ops ans n = Some a -> means L a (R n) /\ r_match (R n) = None) ->
  flow_ok f -> fl_proto f = 132 -> 0 < enc ->
  l4_packet eth d1 17 (fl_src f) (fl_dst f) l4 -> ports_at d1 l4 sp dp -> port_num dp = enc -> ports_at d1 (l4 + 8) (fl_sport f) (fl_dport f) ->
  flow_packet eth d2 f ->
  let outer := mkFlow (fl_src f) (fl_dst f) 17 sp dp in flow_ok outer ->
  (forall n a, current ops ans n = Some a -> accepts_packet (R n) outer d1 l4 -> a_ref a = 0 /\ a_udpencap a = enc) ->
  (exists n a, current ops ans n = Some a /\ accepts_packet (R n) outer d1 l4) ->
  runp (packet h now done eth d1) s = runp (packet h now done eth d2) s.
Proof.
  intros HL HR HM OK PR E0 P4 PA EP PI FP outer OO HA HX.
  assert (G1 : getHashKey (S (length d1)) 0 eth d1 = Ok (Some (0, mk_flow_key outer, None))).
  { apply plain_key; [auto|exists l4; auto|congruence]. }
  assert (G2 : getHashKey (S (length d1)) enc eth d1 = Ok (Some (4, mk_flow_key f, None))).
  { apply encap_key; [auto|lia|]. split; auto. exists l4, sp, dp. auto. }
  assert (G3 : getHashKey (S (length d2)) 0 eth d2 = Ok (Some (0, mk_flow_key f, None))).
  { apply plain_key; [auto|auto|congruence]. }
  destruct (key_fields outer OO) as (K1 & _ & K3). destruct (key_fields f OK) as (K1' & _ & _).
  cbn [outer fl_proto fl_dport] in K1, K3. rewrite EP in K3. rewrite PR in K1'.
  destruct (run_inv L ops HL [] _ (t_set s) ans (inv_nil L) HR) as ((I1 & I2 & I3 & I4) & _). fold (current ops ans) in *.
  assert (FM : forall f, In f (t_set s) -> exists a, current ops ans (f_name f) = Some a /\ Flow_Proofs.agrees a (R (f_name f)) f /\ f_match f = None).
  { intros g G. destruct (I3 g G) as (a & A1 & A2). destruct (HM _ _ A1) as (M1 & M2).
    destruct (makeFlow_ok L a _ HL M1) as (f' & EF & AG). assert (f' = g) by congruence. subst f'. exists a. split; auto. split; auto.
    destruct AG as (_ & _ & _ & _ & _ & _ & _ & _ & _ & AM). rewrite M2 in AM. unfold match_agree in AM. destruct (f_match g); auto. contradiction. }
  assert (NP : forall v k g eth p, flowMatch false k g eth p = Ok v -> v <> NoMatch -> v = Match).
  { intros v k g eth0 p X N. unfold flowMatch in X. destruct (negb _); [congruence|]. destruct (negb _); [congruence|]. cbn [andb] in X.
    destruct (negb _); [congruence|]. destruct (inPorts _ _) as [b| | |]; cbn [obind] in X; try discriminate. destruct (negb b); [congruence|].
    destruct (inPorts _ _) as [b'| | |]; cbn [obind] in X; try discriminate. destruct (negb b'); [congruence|].
    match type of X with obind ?y _ = _ => destruct y as [b''| | |]; cbn [obind] in X; try discriminate end. destruct b''; congruence. }
  assert (L1 : forall u, flowLookup (h_ping h) (t_set s) (mk_flow_key outer) eth (Some d1) u = Ok (0, enc)).
  { intros u. assert (PO : flowLookup (h_ping h) (t_set s) (mk_flow_key outer) eth (Some d1) u = flowLookup false (t_set s) (mk_flow_key outer) eth (Some d1) u)
      by (destruct (h_ping h); auto; apply ping_others; lia). rewrite PO. apply lookup_companions.
    - intros g G. destruct (FM g G) as (a & A1 & A2 & A3). destruct (HM _ _ A1) as (_ & M2).
      destruct (match_one a _ g outer eth d1 l4 A2 OO P4 PA) as (v & V1 & V2); [congruence|]. exists v. split; auto. intros N.
      split; [eapply NP; eauto|]. assert (HV : hit v = true) by (destruct v; auto; congruence). apply V2 in HV.
      destruct (HA _ _ A1 HV) as (X1 & X2). destruct A2 as (_ & _ & Y1 & Y2 & _). split; congruence.
    - left. destruct HX as (n & a & A1 & A2). destruct (I4 _ _ A1) as (AN & g & F1 & F2). destruct (FM g F1) as (a' & B1 & B2 & B3).
      destruct (makeFlow_fields _ _ _ F2) as (GN & _). assert (EN : f_name g = n) by congruence.
      destruct (HM _ _ B1) as (_ & M2). destruct (match_one a' _ g outer eth d1 l4 B2 OO P4 PA) as (v & V1 & V2); [congruence|].
      exists g, v. split; auto. split; auto. rewrite EN in V2. apply V2 in A2. destruct v; [discriminate|discriminate|discriminate]. }
  assert (L2 : forall u, flowLookup (h_ping h) (t_set s) (mk_flow_key f) eth (Some d1) u = flowLookup (h_ping h) (t_set s) (mk_flow_key f) eth (Some d2) u).
  { intros u. apply flowLookup_packet. apply Forall_forall. intros g G. destruct (FM g G) as (_ & _ & _ & X). auto. }
  unfold packet. rewrite G1, G3. change (Z.land 0 3 =? 0) with true. cbv iota. unfold classify.
  rewrite (run_lookup0 _ _ _ _ _ _ _ _ (L1 0)). rewrite K1, K3, K1', !Z.eqb_refl. cbn [andb]. rewrite G2.
  change (132 =? 17) with false. cbn [andb]. unfold lookup. cbn [runp]. rewrite L2.
  destruct (flowLookup (h_ping h) (t_set s) (mk_flow_key f) eth (Some d2) 0) as [[a u]| | |]; auto.
Qed.

(** A catch-all flow of lower priority takes the encapsulated packets. *)
Lemma sctp_good L name target p ue : own_name name -> zlen name <= 1000 -> 0 <= ue < 65536 -> good_command L (sctpcmd name target p None ue).
Proof.
  intros O Z U. split; [cbn; intros n E; assert (n = name) as -> by congruence; auto|]. intros _.
  exists name. split; auto. split; auto.
  assert (AC : any_case (str "sctp") (str "sctp")) by (repeat constructor).
  split; [|split; auto; cbn; eauto].
  exists (mkRule (Some [132]) None None None None None). unfold means. cbn. split; [lia|]. split; [|auto].
  constructor; [|constructor]. exists (str "sctp"). split; auto. unfold Match_Spec.proto_name. auto.
Qed.
Definition answered (h : hconf) (d : list Z) (v : Z) (s : state) : bool :=
  match runp (packet h 1 false 2048 d) s with Some (Verdict x, _, _) => x =? v | _ => false end.
Lemma answered_ok h d v s : answered h d v s = true -> exists s' ev, runp (packet h 1 false 2048 d) s = Some (Verdict v, s', ev).
Proof.
  unfold answered. destruct (runp _ s) as [[[[x|m] s'] ev]|]; try discriminate. destruct (Z.eqb_spec x v) as [->|]; [eauto|discriminate].
Qed.
Definition sched_udp : list move :=
  Command (sctpcmd (str "a") (str "t1") 10 None 9899) :: fs 4 ++ Command (setcmd (str "b") (str "t2") 5 None None 0) :: fs 3.
Ltac hdr_solve := unfold ipv4_header, ipv4_frag, ports_at; cbn [fl_src fl_dst fl_proto fl_sport fl_dport];
  repeat match goal with
  | |- _ /\ _ => split
  | |- at_ _ _ _ => at_solve
  | |- _ = _ => vm_compute; reflexivity
  | |- _ < _ => vm_compute; reflexivity
  | |- _ <= _ => vm_compute; discriminate
  end.
Definition ex_inner : flow := mkFlow (mapped [10;0;0;1]) (mapped [10;0;0;2]) 132 [4;210] [0;80].
Definition ex_outer : flow := mkFlow (mapped [10;0;0;1]) (mapped [10;0;0;2]) 17 [9;9] [38;171].
Ltac l4_solve := left; split; [reflexivity|]; exists [10;0;0;1], [10;0;0;2]; split; [reflexivity|]; split; [reflexivity|]; split;
  [unfold ipv4_header; split; [reflexivity|]; split; [reflexivity|]; split; [exists 69; split; [at_solve|reflexivity]|]; hdr_solve
  |exists 0, 0; hdr_solve].
Lemma ex_flows_ok : flow_ok ex_inner /\ flow_ok ex_outer.
Proof. split; unfold flow_ok, bytes; cbn; repeat split; auto; apply bytes_chk; reflexivity. Qed.
Lemma ex_sctp_packets : flow_ok ex_inner /\ encap_packet 2048 ex_encap 9899 ex_inner /\ flow_packet 2048 ex_native ex_inner.
Proof.
  split; [apply ex_flows_ok|]. split.
  - split; [reflexivity|]. exists 20, [9;9], [38;171]. split; [l4_solve|split; [hdr_solve|split; [reflexivity|hdr_solve]]].
  - exists 20. split; [l4_solve|hdr_solve].
Qed.
Lemma udp_catch_all : exists tr w s1 e1 s2 e2, exec (ex_h false) (fun _ m => ordinary (ex_h false) m) (ex_start false) tr w /\ quiescent w /\
  encap_packet 2048 ex_encap 9899 ex_inner /\ flow_packet 2048 ex_native ex_inner /\
  (exists f, In f (t_set (w_st w)) /\ f_ref f = 1 /\ f_udpencap f = 9899 /\ forall g, In g (t_set (w_st w)) -> f_ref g <> 0 -> g <> f -> f_priority g < f_priority f) /\
  runp (packet (ex_h false) 1 false 2048 ex_encap) (w_st w) = Some (Verdict 102, s1, e1) /\
  runp (packet (ex_h false) 1 false 2048 ex_native) (w_st w) = Some (Verdict 101, s2, e2).
Proof.
  destruct (play_sat nochk (ex_h false) (fun _ m => ordinary (ex_h false) m) (ex_start false) sched_udp
     (fun w tr => quiescentb w && (answered (ex_h false) ex_encap 102 (w_st w) && answered (ex_h false) ex_native 101 (w_st w)) &&
        match filter (fun f => negb (f_ref f =? 0)) (t_set (w_st w)) with
        | [f; g] => (f_ref f =? 1) && (f_udpencap f =? 9899) && (f_priority g <? f_priority f) | _ => false end)%bool)
    as (tr & w & H & B); [|vm_compute; reflexivity|].
  - intros w m H _. cbn in H. repeat (destruct H as [<-|H]; [move_solve; try (apply sctp_good; [own_solve|cbn; lia|lia])|]); destruct H.
  - apply Bool.andb_true_iff in B. destruct B as (B & B3). apply Bool.andb_true_iff in B. destruct B as (B0 & B). apply Bool.andb_true_iff in B. destruct B as (B1 & B2).
    apply answered_ok in B1, B2. destruct B1 as (s1 & e1 & B1). destruct B2 as (s2 & e2 & B2).
    exists tr, w, s1, e1, s2, e2. split; auto. split; [apply quiescentb_ok; auto|]. split; [apply ex_sctp_packets|]. split; [apply ex_sctp_packets|]. split; [|split; auto].
    destruct (filter _ _) as [|f [|g [|]]] eqn:EF; try discriminate.
    assert (HI : forall x, In x [f; g] <-> In x (t_set (w_st w)) /\ negb (f_ref x =? 0) = true) by (intros x; rewrite <- EF; apply filter_In).
    exists f. split; [apply (HI f); left; auto|]. split; [lia|]. split; [lia|]. intros x X N D.
    assert (K : In x [f; g]) by (apply HI; split; auto; lia). destruct K as [->|[->|[]]]; [congruence|lia].
Qed.

(** ** A refused definition leaves the companion behind *)
Definition sctp_a : list move := Command (sctpcmd (str "a") (str "t1") 0 None 0) :: fs 3.
Definition refused_b : flowcmd := sctpcmd (str "b") (str "t1") 0 (Some (str "x")) 9899.
Lemma companion_left : exists tr w s' ev s1 e1 s2 e2, exec (ex_h false) (fun _ m => ordinary (ex_h false) m) (ex_start false) tr w /\ quiescent w /\
  runp (cmd_set (h_lib (ex_h false)) refused_b) (w_st w) = Some (Reply "Invalid dports", s', ev) /\
  runp (packet (ex_h false) 1 false 2048 ex_encap) (w_st w) = Some (Verdict (h_nolb (ex_h false)), s1, e1) /\
  runp (packet (ex_h false) 1 false 2048 ex_encap) s' = Some (Verdict 101, s2, e2).
Proof.
  destruct (play_sat nochk (ex_h false) (fun _ m => ordinary (ex_h false) m) (ex_start false) sctp_a
     (fun w tr => quiescentb w && answered (ex_h false) ex_encap 0 (w_st w) && match runp (cmd_set (h_lib (ex_h false)) refused_b) (w_st w) with
        Some (Reply m, s', _) => String.eqb m "Invalid dports" && answered (ex_h false) ex_encap 101 s' | _ => false end)%bool)
    as (tr & w & H & B); [|vm_compute; reflexivity|].
  - intros w m H _. cbn in H. repeat (destruct H as [<-|H]; [move_solve; try (apply sctp_good; [own_solve|cbn; lia|lia])|]); destruct H.
  - apply Bool.andb_true_iff in B. destruct B as (B & B3). apply Bool.andb_true_iff in B. destruct B as (B0 & B).
    destruct (runp (cmd_set _ refused_b) (w_st w)) as [[[[|m] s'] ev]|] eqn:ER; try discriminate. apply Bool.andb_true_iff in B3. destruct B3 as (B3 & B4).
    apply String.eqb_eq in B3. subst m. apply answered_ok in B, B4. destruct B as (s1 & e1 & B). destruct B4 as (s2 & e2 & B4).
    exists tr, w, s', ev, s1, e1, s2, e2. split; auto. split; [apply quiescentb_ok; auto|]. auto.
Qed.

(** The flow and its companion, for the example of C42 *)
Definition ex_udp_ops : list op :=
  [Define (udpArgs (sctpcmd (str "a") (str "t1") 10 None 9899) (str "a")); Define (cmdArgs (sctpcmd (str "a") (str "t1") 10 None 9899) (str "a") 1)].
Definition ex_udp_rules (n : chars) : rule :=
  if streq n (str "#a") then mkRule (Some [17]) (Some [(9899, 9899)]) None None None None else mkRule (Some [132]) None None None None None.
Lemma ex_udp_example : exists set ans, run ex_lib [] ex_udp_ops = Ok (set, ans) /\
  (forall n a, current ex_udp_ops ans n = Some a -> means ex_lib a (ex_udp_rules n) /\ r_match (ex_udp_rules n) = None) /\
  flow_ok ex_inner /\ flow_ok ex_outer /\ flow_packet 2048 ex_native ex_inner /\
  l4_packet 2048 ex_encap 17 (fl_src ex_inner) (fl_dst ex_inner) 20 /\ ports_at ex_encap 20 [9;9] [38;171] /\ port_num [38;171] = 9899 /\
  ports_at ex_encap 28 (fl_sport ex_inner) (fl_dport ex_inner) /\
  (forall n a, current ex_udp_ops ans n = Some a -> accepts_packet (ex_udp_rules n) ex_outer ex_encap 20 -> a_ref a = 0 /\ a_udpencap a = 9899) /\
  (exists n a, current ex_udp_ops ans n = Some a /\ accepts_packet (ex_udp_rules n) ex_outer ex_encap 20).
Proof.
  eexists _, _. split; [vm_compute; reflexivity|].
  assert (C : forall n, current ex_udp_ops [Defined None; Defined None] n =
    if streq n (str "a") then Some (cmdArgs (sctpcmd (str "a") (str "t1") 10 None 9899) (str "a") 1)
    else if streq n (str "#a") then Some (udpArgs (sctpcmd (str "a") (str "t1") 10 None 9899) (str "a")) else None) by reflexivity.
  assert (EA : forall n, streq n (str "a") = true -> streq n (str "#a") = false).
  { intros n H. apply streq_eq in H. rewrite H. reflexivity. }
  split.
  { intros n a. rewrite C. unfold ex_udp_rules. destruct (streq n (str "a")) eqn:E1.
    - rewrite (EA n E1). intros H. assert (a = cmdArgs (sctpcmd (str "a") (str "t1") 10 None 9899) (str "a") 1) as -> by congruence. split; auto.
      unfold means. cbn. split; [lia|]. split; [|auto]. constructor; [|constructor]. exists (str "sctp"). split; [repeat constructor|]. unfold Match_Spec.proto_name. auto.
    - destruct (streq n (str "#a")); [|discriminate].
      intros H. assert (a = udpArgs (sctpcmd (str "a") (str "t1") 10 None 9899) (str "a")) as -> by congruence. split; auto.
      split; [reflexivity|]. split; [|split; [apply (port_text 9899); lia|cbn; auto]].
      constructor; [|constructor]. exists (str "udp"). split; [repeat constructor|]. unfold Match_Spec.proto_name. auto. }
  split; [apply ex_flows_ok|]. split; [apply ex_flows_ok|]. split; [apply ex_sctp_packets|].
  split; [l4_solve|]. split; [hdr_solve|]. split; [reflexivity|]. split; [hdr_solve|]. split.
  - intros n a. rewrite C. unfold ex_udp_rules. destruct (streq n (str "a")) eqn:E1.
    + rewrite (EA n E1). intros _ (_ & H & _). cbn in H. destruct H as [H|[]]. discriminate.
    + destruct (streq n (str "#a")); [|discriminate]. intros H _. assert (a = udpArgs (sctpcmd (str "a") (str "t1") 10 None 9899) (str "a")) as -> by congruence. split; reflexivity.
  - exists (str "#a"), (udpArgs (sctpcmd (str "a") (str "t1") 10 None 9899) (str "a")). split; [reflexivity|].
    unfold ex_udp_rules, accepts_packet, accepts_addr. change (streq (str "#a") (str "#a")) with true. cbv iota. cbn [r_dsts r_srcs r_protocols r_dports r_sports r_match all_or].
    split; [auto|]. split; [cbn; auto|]. split; [|auto]. exists 9899, 9899. split; [left; auto|]. cbn. lia.
Qed.
