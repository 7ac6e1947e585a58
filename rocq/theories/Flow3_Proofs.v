(** Safety of the flow operations, priorities, and ICMP (C37, C41, C61). *)
From Coq Require Import String Permutation Sorted.
From Verif Require Import Base Lists Cstr_Model Util_Spec Util_Proofs Rangeset_Model Rangeset_Spec
  Rangeset_Proofs Rangeset2_Proofs IpKey_Model IpKey_Spec IpKey_Proofs Match_Model Match_Spec Match_Proofs
  Flow_Model Flow_Spec Cidr_Proofs Flow_Proofs Flow2_Proofs.

(** ** Definitions do not go wrong *)
Lemma cidr_total L s : fits s -> exists r, parseCidr L s = Ok r.
Proof.
  intros F. unfold parseCidr.
  assert (T : exists x, cidrText s = Ok x).
  { unfold cidrText. destruct (split_at 58 s) eqn:E; [|eauto].
    destruct F as [F|F]; [|replace (zlen s <? 128) with true by lia; eauto].
    rewrite split_at_none in E; [discriminate|]. intros x I ->. auto. }
  destruct T as ([t v4] & ->). cbn [obind]. destruct (split_at 47 t) as [[adr m]|]; [|eauto].
  destruct (scanu m) as [[mask rest]|] eqn:E; [|eauto]. apply scanu_u32 in E. unfold is_u32 in E.
  set (mk := if v4 then u32 (mask + 96) else mask).
  assert (0 <= mk) by (unfold mk, u32; destruct v4; [apply Z.mod_pos_bound; reflexivity|lia]).
  destruct (128 <? mk) eqn:G; [eauto|]. destruct (pton L adr); [|eauto].
  destruct (mask_ok mk ltac:(lia)) as (x & -> & _). cbn [obind]. eauto.
Qed.
Lemma cidrs_total L l : Forall fits l -> exists r, parseCidrs L l = Ok r.
Proof.
  intros F. unfold parseCidrs. destruct (zlen l =? 0); [eauto|]. destruct (32 <? zlen l); [eauto|].
  induction F as [|s l H F IH]; cbn [parseAll]; [eauto|].
  destruct (cidr_total L s H) as (r & ->). cbn [obind]. destruct r as [c|]; [|eauto].
  destruct IH as (r & ->). cbn [obind]. destruct r; eauto.
Qed.
Lemma addMatches_total l : forall m, exists r, addMatches m l = Ok r.
Proof.
  induction l as [|s l IH]; intros m; cbn [addMatches]; [eauto|]. unfold matchAdd.
  destruct (matchParse_total s) as (r & ->). cbn [obind]. destruct r; cbn [obind]; eauto.
Qed.
Lemma ifgiven_total {A B} e (x : option A) (p : A -> outcome (option B)) :
  (forall a, x = Some a -> exists r, p a = Ok r) -> exists r, ifgiven e x p = Ok r.
Proof.
  intros H. destruct x as [a|]; cbn [ifgiven]; [|eauto]. destruct (H a eq_refl) as (r & ->). cbn [obind].
  destruct r; eauto.
Qed.
Lemma makeFlow_total L a : qsort_ok (sort_nodes L) -> safe_op (Define a) -> exists r, makeFlow L a = Ok r.
Proof.
  intros Q (S1 & S2). unfold makeFlow. destruct (MAX_NAME <=? zlen (a_name a)); [eauto|].
  destruct (ifgiven_total "Invalid protocols" (a_protocols a) (fun v => Ok (parseProtocol v))) as (r & ->); [eauto|].
  cbn [obind]. destruct r as [|p]; [eauto|].
  destruct (ifgiven_total "Invalid dports" (a_dports a) (parsePorts L)) as (r & ->).
  { intros s _. destruct (ports_total L s Q) as (r & E & _). eauto. }
  cbn [obind]. destruct r as [|dp]; [eauto|].
  destruct (ifgiven_total "Invalid dports" (a_sports a) (parsePorts L)) as (r & ->).
  { intros s _. destruct (ports_total L s Q) as (r & E & _). eauto. }
  cbn [obind]. destruct r as [|sp]; [eauto|].
  destruct (ifgiven_total "Invalid dsts" (a_dsts a) (parseCidrs L)) as (r & ->).
  { intros s E. rewrite E in S1. apply cidrs_total. auto. }
  cbn [obind]. destruct r as [|ds]; [eauto|].
  destruct (ifgiven_total "Invalid srcs" (a_srcs a) (parseCidrs L)) as (r & ->).
  { intros s E. rewrite E in S2. apply cidrs_total. auto. }
  cbn [obind]. destruct r as [|ss]; [eauto|].
  destruct (ifgiven_total "Match" (a_match a) (addMatches matchCreate)) as (r & ->).
  { intros s _. apply addMatches_total. }
  cbn [obind]. destruct r; eauto.
Qed.

Lemma comparable_ok l : (forall f g, In f l -> In g l -> is_int (f_priority g - f_priority f)) -> comparable l = true.
Proof.
  intros H. unfold comparable. apply forallb_forall. intros f F. apply forallb_forall. intros g G.
  specialize (H f g F G). unfold is_int in H. unfold cmpFlows, INT_MIN, INT_MAX.
  replace ((-2147483648 <=? f_priority g - f_priority f) && (f_priority g - f_priority f <=? 2147483647)) with true by lia. auto.
Qed.

Lemma run_total L ops : libc_ok L -> Forall safe_op ops -> forall ps set, no_overflow (ps ++ priorities ops) ->
  NoDup (names set) -> Forall (fun f => In (f_priority f) ps) set ->
  exists set' ans, run L set ops = Ok (set', ans).
Proof.
  intros HL F. pose proof HL as (_ & Q & HS). induction F as [|o ops S F IH]; intros ps set NO ND FS; cbn [run]; [eauto|].
  destruct o as [a|d].
  - unfold flowDefine. destruct (makeFlow_total L a Q S) as (r & E). rewrite E. cbn [obind].
    cbn [priorities flat_map] in NO. fold (priorities ops) in NO.
    destruct r as [er|f].
    + cbn [obind]. destruct (IH ps set) as (s & l & ->); auto; [|cbn [obind]; eauto].
      intros p q P1 P2. apply NO; rewrite in_app_iff in *; cbn [app]; cbn; intuition.
    + destruct (makeFlow_fields _ _ _ E) as (FN & FP & _). destruct (insert_in f set ND) as (J1 & J2).
      rewrite Forall_forall in FS.
      assert (FS' : forall g, In g (insertFlow f set) -> In (f_priority g) (ps ++ [a_priority a])).
      { intros g G. apply J2 in G. rewrite in_app_iff. destruct G as [->|(G & _)]; [cbn; auto|auto]. }
      unfold sortFlows. rewrite comparable_ok.
      2:{ intros x y X Y. apply NO; rewrite app_assoc; apply in_or_app; left; auto. }
      cbn [obind]. destruct (HS (insertFlow f set)) as (P & B).
      destruct (IH (ps ++ [a_priority a]) (sort_flows L (insertFlow f set))) as (s & l & ->); [| | |cbn [obind]; eauto].
      * rewrite <- app_assoc. exact NO.
      * eapply Perm_names; eauto.
      * rewrite Forall_forall. intros g G. apply FS'. eapply Permutation_in; [apply Permutation_sym; eauto|auto].
  - pose proof (delete_in d set ND) as H. destruct (flowDelete set d) as [r set1]. destruct H as (D1 & D2 & _).
    destruct (IH ps set1) as (s & l & ->); auto; [|cbn [obind]; eauto].
    rewrite Forall_forall in *. intros g G. apply D2 in G. apply FS. apply G.
Qed.

Lemma sorted_priorities l : by_priority l -> StronglySorted (fun p q => q <= p) (map f_priority l).
Proof.
  induction 1 as [|f l H IH F]; cbn [map]; constructor; auto. rewrite Forall_forall in *.
  intros p P. apply in_map_iff in P. destruct P as (g & <- & G). auto.
Qed.

Lemma ordered_history L ops : libc_ok L -> Forall safe_op ops -> no_overflow (priorities ops) ->
  exists set ans, run L [] ops = Ok (set, ans) /\ StronglySorted (fun p q => q <= p) (map f_priority set).
Proof.
  intros HL S NO. destruct (run_total L ops HL S [] [] NO) as (set & ans & E); [constructor|constructor|].
  exists set, ans. split; auto. apply sorted_priorities.
  destruct (run_inv L ops HL [] _ set ans (inv_nil L) E) as ((I1 & _) & _). auto.
Qed.

(** ** Lookups do not go wrong *)
Lemma makeFlow_parts L a f : qsort_ok (sort_nodes L) -> makeFlow L a = Ok (inr f) ->
  (forall v, exists b, inPorts (f_dports f) v = Ok b) /\ (forall v, exists b, inPorts (f_sports f) v = Ok b) /\
  (forall m, f_match f = Some m -> exists ss, add_texts matchCreate ss = Ok (inr m)).
Proof.
  intros Q. unfold makeFlow. destruct (MAX_NAME <=? zlen (a_name a)); [discriminate|].
  destruct (ifgiven "Invalid protocols" (a_protocols a) _) as [[|p]| | |]; cbn [obind]; try discriminate.
  destruct (ifgiven "Invalid dports" (a_dports a) (parsePorts L)) as [[|dp]| | |] eqn:ED; cbn [obind]; try discriminate.
  destruct (ifgiven "Invalid dports" (a_sports a) (parsePorts L)) as [[|sp]| | |] eqn:ES; cbn [obind]; try discriminate.
  destruct (ifgiven "Invalid dsts" (a_dsts a) _) as [[|ds]| | |]; cbn [obind]; try discriminate.
  destruct (ifgiven "Invalid srcs" (a_srcs a) _) as [[|ss]| | |]; cbn [obind]; try discriminate.
  destruct (ifgiven "Match" (a_match a) _) as [[|m]| | |] eqn:EM; cbn [obind]; try discriminate.
  intros H. match type of H with Ok (inr ?g) = _ => assert (f = g) as -> by congruence end. clear H.
  cbn [f_dports f_sports f_match].
  assert (P : forall s t, ifgiven "Invalid dports" s (parsePorts L) = Ok (inr t) -> forall v, exists b, inPorts t v = Ok b).
  { intros s t E v. destruct s as [s|]; cbn [ifgiven] in E.
    - destruct (ports_total L s Q) as (r & E' & G). rewrite E' in E. cbn [obind] in E. destruct r as [r|]; [|discriminate].
      assert (t = Some r) as -> by congruence. apply (G r eq_refl).
    - assert (t = None) as -> by congruence. cbn. eauto. }
  split; [eapply P; eauto|]. split; [eapply P; eauto|].
  intros m' ->. destruct (a_match a) as [ms|]; cbn [ifgiven] in EM; [|discriminate].
  rewrite addMatches_texts in EM. exists ms.
  destruct (add_texts matchCreate ms) as [[e|x]| | |]; cbn [omap obind] in EM; try discriminate. congruence.
Qed.

Lemma lookup_total ping k eth pkt u set :
  (forall f, In f set -> exists v, flowMatch ping k f eth pkt = Ok v) ->
  exists r, flowLookup ping set k eth pkt u = Ok r.
Proof.
  revert u. induction set as [|f set IH]; intros u H; cbn [flowLookup]; [eauto|].
  destruct (H f (or_introl eq_refl)) as (v & ->). cbn [obind].
  destruct (_ =? 0); [|eauto]. apply IH. intros; apply H; cbn; auto.
Qed.
Lemma lookup_safe L ops set ans ping k eth pkt u : libc_ok L -> run L [] ops = Ok (set, ans) ->
  (forall f m, In f set -> f_match f = Some m -> Forall no_wrap m) ->
  (forall data, pkt = Some data -> Forall (fun b => 0 <= b < 256) data) ->
  exists r, flowLookup ping set k eth pkt u = Ok r.
Proof.
  intros HL H NW B. destruct (run_inv L ops HL [] _ set ans (inv_nil L) H) as ((I1 & I2 & I3 & I4) & _).
  apply lookup_total. intros f F. destruct (I3 f F) as (a & _ & E). destruct HL as (_ & Q & _).
  destruct (makeFlow_parts L a f Q E) as (PD & PS & PM). unfold flowMatch.
  destruct (negb _); [eauto|]. destruct (negb _); [eauto|]. destruct (_ && _ && _); [eauto|]. destruct (negb _); [eauto|].
  destruct (PD (kdport k)) as (b & ->). cbn [obind]. destruct (negb b); [eauto|].
  destruct (PS (ksport k)) as (b' & ->). cbn [obind]. destruct (negb b'); [eauto|].
  destruct (f_match f) as [m|] eqn:EM; [|cbn [obind]; eauto]. destruct pkt as [data|]; [|cbn [obind]; eauto].
  destruct (PM m eq_refl) as (ss & ET).
  destruct (stored_eval ss m eth (kproto k) data ET) as (b'' & ->); [eapply NW; eauto|auto|]. cbn [obind]. eauto.
Qed.

(** ** ICMP *)
Lemma icmp_key fuel enc eth data t src dst : icmp_message eth data t src dst -> ~ quoting eth t ->
  exists k, getHashKey (S fuel) enc eth data = Ok (Some (16, k, None)) /\ k_src k = src /\ k_dst k = dst /\
    (kproto k = 1 \/ kproto k = 58) /\ forallb (Z.eqb 0) (k_id k) = false.
Proof.
  intros [(-> & hl & s4 & d4 & -> & -> & HH & HF & HT & LL)|(-> & HH & HT & LL)] NQ; unfold getHashKey.
  - change (ETH_IP =? 2048) with true. cbv beta iota.
    pose proof HH as [_ [_ [_ [Hl _]]]].
    destruct (at_exists data 4 2) as [id [I1 I2]]; [lia|lia|].
    rewrite (getHashKeyIpv4_header _ _ _ _ _ _ _ _ _ _ HH HF I1 I2) by lia.
    change (0 =? 0) with true. cbv beta iota. unfold ipv4_rest. change (1 =? 1) with true. cbv iota.
    rewrite (at_aget _ _ _ HT). cbn [obind].
    unfold quoting in NQ. change (ETH_IP =? ETH_IP) with true in NQ. cbv iota in NQ.
    unfold icmp4_error. replace ((t =? 3) || (t =? 4) || (t =? 5) || (t =? 11)) with false by lia.
    destruct (t =? 8).
    + destruct (at_exists data (hl + 4) 2) as [i [J1 J2]]; [lia|lia|].
      rewrite (rdn_at_n _ _ 2 _ J1 J2). cbn [obind]. eexists. split; [reflexivity|].
      destruct i as [|x [|y [|]]]; try discriminate. cbn.
      split; [reflexivity|]. split; [reflexivity|]. split; [auto|]. destruct (x); cbn; auto; destruct y; auto.
    + cbn [obind]. eexists. split; [reflexivity|]. cbn. auto.
  - change (ETH_IPV6 =? 2048) with false. change (ETH_IPV6 =? 34525) with true. cbv beta iota.
    destruct HH as [L1 [L2 [A1 [A2 A3]]]]. unfold getHashKeyIpv6, in_bounds.
    destruct (0 + 40 <? zlen data) eqn:E; [|lia]. cbn [negb].
    change (0 + 6) with 6 in A1. change (0 + 8) with 8 in A2. change (0 + 24) with 24 in A3.
    rewrite (at_aget _ _ _ A1). cbn [obind]. rewrite (rdn_at_n _ _ 16 _ A2 L1), (rdn_at_n _ _ 16 _ A3 L2). cbn [obind].
    cbn [ext_loop]. change (is_ext 58) with false. cbn [negb obind]. change (58 =? 44) with false. cbv iota.
    unfold ipv6_upper. change (58 =? 58) with true. cbv iota. rewrite (at_aget _ _ _ HT). cbn [obind].
    unfold quoting in NQ. change (ETH_IPV6 =? ETH_IP) with false in NQ. cbv iota in NQ.
    unfold icmp6_error. replace ((t =? 1) || (t =? 2)) with false by lia.
    destruct (t =? 128).
    + destruct (at_exists data (40 + 4) 2) as [i [J1 J2]]; [lia|lia|].
      rewrite (rdn_at_n _ _ 2 _ J1 J2). cbn [obind]. eexists. split; [reflexivity|].
      destruct i as [|x [|y [|]]]; try discriminate. cbn.
      split; [reflexivity|]. split; [reflexivity|]. split; [auto|]. destruct (x); cbn; auto; destruct y; auto.
    + cbn [obind]. eexists. split; [reflexivity|]. cbn. auto.
Qed.

Lemma ping_match a r f k eth pkt : agrees a r f -> bytes 16 (k_src k) -> bytes 16 (k_dst k) ->
  (kproto k = 1 \/ kproto k = 58) -> forallb (Z.eqb 0) (k_id k) = false ->
  exists v, flowMatch true k f eth pkt = Ok v /\ (hit v = true <-> accepts_addr r (k_src k) (k_dst k)).
Proof.
  intros (_ & _ & _ & _ & AP & AD & AS & ADS & ASS & AM) BS BD KP KI.
  unfold flowMatch, accepts_addr. specialize (ADS _ BD). specialize (ASS _ BS).
  destruct (inCidrs (f_dsts f) (k_dst k)); cbn [negb].
  2:{ exists NoMatch. split; auto. cbn. split; [discriminate|]. intros (X & _). apply ADS in X. discriminate. }
  destruct (inCidrs (f_srcs f) (k_src k)); cbn [negb].
  2:{ exists NoMatch. split; auto. cbn. split; [discriminate|]. intros (_ & X). apply ASS in X. discriminate. }
  replace ((kproto k =? 1) || (kproto k =? 58)) with true by lia. rewrite KI. cbn.
  exists Ping. split; auto. cbn. split; auto. intros _. split; [apply ADS|apply ASS]; auto.
Qed.

Lemma ping_classification L ops set ans (R : chars -> rule) fuel eth data t src dst u :
  libc_ok L -> run L [] ops = Ok (set, ans) ->
  (forall n a, current ops ans n = Some a -> means L a (R n)) ->
  icmp_message eth data t src dst -> ~ quoting eth t -> bytes 16 src -> bytes 16 dst ->
  exists k r u', getHashKey (S fuel) 0 eth data = Ok (Some (16, k, None)) /\
    flowLookup true set k eth (Some data) u = Ok (r, u') /\
    (r <> 0 -> exists n a, current ops ans n = Some a /\ a_ref a = r /\ accepts_addr (R n) src dst /\
       forall n' a', current ops ans n' = Some a' -> a_ref a' <> 0 -> accepts_addr (R n') src dst ->
         a_priority a' <= a_priority a) /\
    (r = 0 -> forall n' a', current ops ans n' = Some a' -> accepts_addr (R n') src dst -> a_ref a' = 0).
Proof.
  intros HL H M IM NQ BS BD. destruct (run_inv L ops HL [] _ set ans (inv_nil L) H) as ((I1 & I2 & I3 & I4) & _).
  fold (current ops ans) in *.
  destruct (icmp_key fuel 0 eth data t src dst IM NQ) as (k & EK & KS & KD & KP & KI). exists k.
  destruct (lookup_first true set k eth (Some data)
    (fun f => accepts_addr (R (f_name f)) src dst) I1) with (u := u) as (r & u' & E & A & B).
  { intros f F. destruct (I3 f F) as (a & A1 & A2). pose proof (M _ _ A1) as MM.
    destruct (makeFlow_ok L a _ HL MM) as (f' & EF & AG). assert (f' = f) by congruence. subst f'.
    rewrite <- KS, <- KD. eapply ping_match; eauto; congruence. }
  exists r, u'. split; auto. split; auto.
  assert (FA : forall n a, current ops ans n = Some a -> exists f, In f set /\ f_name f = n /\ f_ref f = a_ref a /\ f_priority f = a_priority a).
  { intros n a K. destruct (I4 _ _ K) as (AN & f & F1 & F2). exists f. split; auto.
    destruct (makeFlow_fields _ _ _ F2) as (X1 & X2 & X3 & _). repeat split; congruence. }
  split.
  - intros N. destruct (A N) as (f & F1 & F2 & F3 & F4). destruct (I3 f F1) as (a & A1 & A2).
    destruct (makeFlow_fields _ _ _ A2) as (X1 & X2 & X3 & _).
    exists (f_name f), a. split; auto. split; [congruence|]. split; auto.
    intros n' a' K1 K2 K3. destruct (FA _ _ K1) as (g & G1 & G2 & G3 & G4).
    rewrite <- X2, <- G4. apply F4; auto; congruence.
  - intros Z n' a' K1 K3. destruct (FA _ _ K1) as (g & G1 & G2 & G3 & G4). rewrite <- G3. apply B; auto. rewrite G2. auto.
Qed.

(** Other packets *)
Lemma echo_classification L ops set ans (R : chars -> rule) fuel eth data src dst u :
  libc_ok L -> run L [] ops = Ok (set, ans) ->
  (forall n a, current ops ans n = Some a -> means L a (R n)) ->
  echo_request eth data src dst -> bytes 16 src -> bytes 16 dst ->
  exists k r u', getHashKey (S fuel) 0 eth data = Ok (Some (16, k, None)) /\
    flowLookup true set k eth (Some data) u = Ok (r, u') /\
    (r <> 0 -> exists n a, current ops ans n = Some a /\ a_ref a = r /\ accepts_addr (R n) src dst /\
       forall n' a', current ops ans n' = Some a' -> a_ref a' <> 0 -> accepts_addr (R n') src dst ->
         a_priority a' <= a_priority a) /\
    (r = 0 -> forall n' a', current ops ans n' = Some a' -> accepts_addr (R n') src dst -> a_ref a' = 0).
Proof.
  intros HL H M E B1 B2. eapply ping_classification; eauto. unfold quoting. destruct (eth =? ETH_IP); lia.
Qed.

Lemma ping_others set k eth pkt u : kproto k <> 1 -> kproto k <> 58 ->
  flowLookup true set k eth pkt u = flowLookup false set k eth pkt u.
Proof.
  intros N1 N2. revert u. induction set as [|f set IH]; intros u; cbn [flowLookup]; auto.
  assert (E : flowMatch true k f eth pkt = flowMatch false k f eth pkt).
  { unfold flowMatch. replace ((kproto k =? 1) || (kproto k =? 58)) with false by lia. auto. }
  rewrite E. destruct (flowMatch false k f eth pkt) as [v| | |]; cbn [obind]; auto.
  destruct (_ =? 0); auto.
Qed.

(** ** A library, for the examples *)
Fixpoint finsert (f : frec) (l : list frec) : list frec :=
  match l with
  | [] => [f]
  | g :: l' => if f_priority g <? f_priority f then f :: l else g :: finsert f l'
  end.
Definition fsort (l : list frec) : list frec := fold_left (fun a f => finsert f a) l [].
Lemma finsert_perm f l : Permutation (f :: l) (finsert f l).
Proof.
  induction l as [|g l IH]; cbn [finsert]; auto. destruct (f_priority g <? f_priority f); auto.
  eapply perm_trans; [apply perm_swap|]. constructor. auto.
Qed.
Lemma finsert_sorted f l : by_priority l -> by_priority (finsert f l).
Proof.
  unfold by_priority. induction 1 as [|g l H IH F]; cbn [finsert]; [repeat constructor|].
  destruct (f_priority g <? f_priority f) eqn:E.
  - constructor; [constructor; auto|]. constructor; [lia|]. eapply Forall_impl; [|exact F]. cbn. intros; lia.
  - constructor; auto. rewrite Forall_forall in *. intros x X.
    apply (Permutation_in _ (Permutation_sym (finsert_perm f l))) in X. destruct X as [<-|X]; [lia|auto].
Qed.
Lemma fsort_ok l : Permutation l (fsort l) /\ by_priority (fsort l).
Proof.
  unfold fsort. assert (G : forall l a, by_priority a -> Permutation (l ++ a) (fold_left (fun a f => finsert f a) l a) /\
    by_priority (fold_left (fun a f => finsert f a) l a)).
  { clear. induction l as [|f l IH]; intros a B; cbn [fold_left app]; auto.
    destruct (IH (finsert f a) (finsert_sorted f a B)) as (P & S). split; auto.
    eapply perm_trans; [|exact P]. eapply perm_trans; [apply Permutation_middle|]. apply Permutation_app_head.
    apply finsert_perm. }
  destruct (G l [] ltac:(constructor)) as (P & S). rewrite app_nil_r in P. auto.
Qed.

Definition quad1 (s : chars) : option (Z * chars) :=
  let '(v, n, r) := digits 10 0 0 s in if (0 <=? v) && (v <? 256) then Some (v, r) else None.
Definition dot (s : chars) : option chars :=
  match s with c :: r => if c =? 46 then Some r else None | [] => None end.
Definition quad (s : chars) : option (list Z) :=
  match quad1 s with None => None | Some (a, s) =>
  match dot s with None => None | Some s =>
  match quad1 s with None => None | Some (b, s) =>
  match dot s with None => None | Some s =>
  match quad1 s with None => None | Some (c, s) =>
  match dot s with None => None | Some s =>
  match quad1 s with None => None | Some (d, s) =>
  match s with [] => Some [a; b; c; d] | _ => None end
  end end end end end end end.
Lemma quad1_dec d v rest : is_dec d v -> v < 256 -> (match rest with [] => True | c :: _ => c = 46 end) ->
  quad1 (d ++ rest) = Some (v, rest).
Proof.
  intros D V R. pose proof (dec_nonneg _ _ D). destruct D as (N & F & E & _). unfold quad1.
  rewrite digits_dec; auto.
  - unfold value. rewrite E. replace ((0 <=? v) && (v <? 256)) with true by lia. auto.
  - destruct rest as [|c rest]; auto. subst c. left. reflexivity.
Qed.
Lemma quad1_byte s v r : quad1 s = Some (v, r) -> 0 <= v < 256.
Proof.
  unfold quad1. destruct (digits 10 0 0 s) as [[w n] r']. destruct ((0 <=? w) && (w <? 256)) eqn:E; [|discriminate].
  intros H. assert (v = w) by congruence. lia.
Qed.
Lemma quad_ok s q : is_quad s q -> quad s = Some q.
Proof.
  intros (a & b & c & d & x & y & z & w & -> & -> & A & B & C & D & X & Y & Z & W). unfold quad.
  change (str ".") with [46].
  rewrite (quad1_dec a x) by (auto; reflexivity). cbn [app dot]. change (46 =? 46) with true. cbv iota.
  rewrite (quad1_dec b y) by (auto; reflexivity). cbn [app dot]. change (46 =? 46) with true. cbv iota.
  rewrite (quad1_dec c z) by (auto; reflexivity). cbn [app dot]. change (46 =? 46) with true. cbv iota.
  rewrite <- (app_nil_r d). rewrite (quad1_dec d w) by auto. auto.
Qed.
Lemma quad_bytes s q : quad s = Some q -> bytes 4 q.
Proof.
  unfold quad. destruct (quad1 s) as [[a s1]|] eqn:A; [|discriminate]. destruct (dot s1) as [s2|]; [|discriminate].
  destruct (quad1 s2) as [[b s3]|] eqn:B; [|discriminate]. destruct (dot s3) as [s4|]; [|discriminate].
  destruct (quad1 s4) as [[c s5]|] eqn:C; [|discriminate]. destruct (dot s5) as [s6|]; [|discriminate].
  destruct (quad1 s6) as [[d s7]|] eqn:D; [|discriminate]. destruct s7; [|discriminate].
  intros H. assert (q = [a; b; c; d]) as -> by congruence.
  apply quad1_byte in A, B, C, D. split; auto.
Qed.
Definition ex_doc : list Z := [32; 1; 13; 184; 0; 0; 0; 0; 0; 0; 0; 0; 0; 0; 0; 0].
Definition ex_pton (s : chars) : option (list Z) :=
  if streq (firstn 7 s) (str "::ffff:")
  then match quad (skipn 7 s) with
       | Some q => Some (mapped q)
       | None => if streq s (str "::ffff:10") then Some [0; 0; 0; 0; 0; 0; 0; 0; 0; 0; 0; 0; 255; 255; 0; 16] else None
       end
  else if streq s (str "2001:db8::") then Some ex_doc
  else if streq s (str "::") then Some (repeat 0 16)
  else None.
Definition ex_lib : libc := mkLibc ex_pton isort fsort.
Lemma ex_lib_ok : libc_ok ex_lib.
Proof.
  split; [|split; [exact isort_ok|exact fsort_ok]]. split; cbn [pton ex_lib]; unfold ex_pton.
  - intros s b. destruct (streq (firstn 7 s) (str "::ffff:")).
    + destruct (quad (skipn 7 s)) as [q|] eqn:E.
      * intros H. assert (b = mapped q) as -> by congruence. apply mapped_bytes. eapply quad_bytes; eauto.
      * destruct (streq s (str "::ffff:10")); [|discriminate]. intros H.
        match type of H with Some ?x = _ => assert (b = x) as -> by congruence end. split; auto. repeat constructor; lia.
    + destruct (streq s (str "2001:db8::")).
      * intros H. assert (b = ex_doc) as -> by congruence. split; auto. repeat constructor; lia.
      * destruct (streq s (str "::")); [|discriminate]. intros H.
        assert (b = repeat 0 16) as -> by congruence. split; auto. repeat constructor; lia.
  - intros s q H. change (firstn 7 (str "::ffff:" ++ s)) with (str "::ffff:").
    rewrite streq_refl. change (skipn 7 (str "::ffff:" ++ s)) with s. rewrite (quad_ok _ _ H). auto.
Qed.

(** ** Any packet *)
Lemma lookup_any ping set k eth pkt : by_priority set ->
  forall u r u', flowLookup ping set k eth pkt u = Ok (r, u') ->
    (r <> 0 -> exists f, In f set /\ f_ref f = r /\ (exists v, flowMatch ping k f eth pkt = Ok v /\ v <> NoMatch) /\
       forall g v, In g set -> f_ref g <> 0 -> flowMatch ping k g eth pkt = Ok v -> v <> NoMatch ->
         f_priority g <= f_priority f) /\
    (r = 0 -> forall g, In g set -> exists v, flowMatch ping k g eth pkt = Ok v /\ (v <> NoMatch -> f_ref g = 0)).
Proof.
  induction set as [|f set IH]; intros B u r u' H; cbn [flowLookup] in H.
  - assert (r = 0) by congruence. split; [congruence|intros _ g []].
  - destruct (flowMatch ping k f eth pkt) as [v| | |] eqn:E; cbn [obind] in H; try discriminate.
    inversion B as [|x y B1 B2]; subst.
    destruct (match v with NoMatch => 0 | _ => f_ref f end =? 0) eqn:Z0.
    + destruct (IH B1 _ _ _ H) as (R2 & R3). split.
      * intros N. destruct (R2 N) as (g & G1 & G2 & G3 & G4). exists g. split; [cbn; auto|]. split; auto. split; auto.
        intros g' w [<-|G'] N' P' Q; [exfalso; assert (v = w) by congruence; subst w; destruct v; [congruence|lia|lia]|].
        eapply G4; eauto.
      * intros -> g [<-|G]; auto. exists v. split; auto. intros Q. destruct v; [congruence|lia|lia].
    + assert (r = match v with NoMatch => 0 | _ => f_ref f end) by congruence.
      assert (HV : v <> NoMatch /\ r = f_ref f /\ f_ref f <> 0) by (destruct v; [discriminate| |]; subst r; split; try discriminate; split; auto; lia).
      destruct HV as (HV & -> & NZ). split; [|congruence].
      intros _. exists f. split; [cbn; auto|]. split; auto. split; [eauto|].
      intros g w [<-|G] _ _ _; [lia|]. rewrite Forall_forall in B2. apply B2. auto.
Qed.
Lemma any_packet L ops set ans ping k eth pkt u r u' : libc_ok L -> run L [] ops = Ok (set, ans) ->
  flowLookup ping set k eth pkt u = Ok (r, u') ->
  (r <> 0 -> exists f, In f set /\ f_ref f = r /\ (exists v, flowMatch ping k f eth pkt = Ok v /\ v <> NoMatch) /\
     forall g v, In g set -> f_ref g <> 0 -> flowMatch ping k g eth pkt = Ok v -> v <> NoMatch ->
       f_priority g <= f_priority f) /\
  (r = 0 -> forall g, In g set -> exists v, flowMatch ping k g eth pkt = Ok v /\ (v <> NoMatch -> f_ref g = 0)).
Proof.
  intros HL H. destruct (run_inv L ops HL [] _ set ans (inv_nil L) H) as ((I1 & _) & _). apply lookup_any. auto.
Qed.

(** ** Valid definitions are accepted *)
Lemma valid_accepted L ops : libc_ok L -> forall set set' ans, run L set ops = Ok (set', ans) -> Forall2 (answered L) ops ans.
Proof.
  intros HL. induction ops as [|[a|d] ops IH]; intros set set' ans H; cbn [run] in H.
  - assert (ans = []) as -> by congruence. constructor.
  - destruct (flowDefine L set a) as [[e s1]| | |] eqn:ED; cbn [obind] in H; try discriminate.
    destruct (run L s1 ops) as [[s2 l]| | |] eqn:ER; cbn [obind] in H; try discriminate.
    assert (ans = Defined e :: l) as -> by congruence. constructor; [|eapply IH; eauto].
    intros (r & M). destruct (makeFlow_ok L a r HL M) as (f & E & _). unfold flowDefine in ED. rewrite E in ED. cbn [obind] in ED.
    destruct (sortFlows L (insertFlow f set)); cbn [obind] in ED; congruence.
  - destruct (flowDelete set d) as [r s1].
    destruct (run L s1 ops) as [[s2 l]| | |] eqn:ER; cbn [obind] in H; try discriminate.
    match type of H with Ok (_, ?x :: _) = _ => assert (ans = x :: l) as -> by congruence end.
    constructor; [exact I|eapply IH; eauto].
Qed.

(** ** Refutations *)
Lemma overflow_ub L : libc_ok L -> run L [] [Define (plain_args (str "a") 2147483647 1); Define (plain_args (str "b") (-1) 2)] = UB.
Proof.
  intros (_ & _ & HS). cbn [run]. unfold flowDefine. change (makeFlow L (plain_args (str "a") 2147483647 1)) with
    (@Ok (string + frec) (inr (mkF (str "a") 2147483647 1 None None None None None None 0))).
  cbn [obind]. unfold sortFlows at 1.
  change (comparable (insertFlow (mkF (str "a") 2147483647 1 None None None None None None 0) [])) with true.
  cbv iota. cbn [obind]. change (insertFlow (mkF (str "a") 2147483647 1 None None None None None None 0) [])
    with [mkF (str "a") 2147483647 1 None None None None None None 0].
  destruct (HS [mkF (str "a") 2147483647 1 None None None None None None 0]) as (P & _).
  apply Permutation_length_1_inv in P. rewrite P. reflexivity.
Qed.

Lemma long_text_ub L s : In 58 s -> 128 <= zlen s -> parseCidr L s = UB.
Proof.
  intros I N. unfold parseCidr, cidrText. destruct (split_at 58 s) eqn:E.
  - replace (zlen s <? 128) with false by lia. reflexivity.
  - exfalso. eapply split_at_some; eauto.
Qed.

Lemma wrapped_length L a q : libc_ok L -> is_quad a q ->
  exists cd, parseCidr L (a ++ str "/4294967200") = Ok (Some cd) /\ forall adr, bytes 16 adr -> addrInCidr cd adr = true.
Proof.
  intros (PO & _) Q. destruct (parse_v4 L a q (str "4294967200") 4294967200 PO Q) as (m & M & E).
  - repeat split; try discriminate; cbn; repeat (apply Forall_cons; [lia|]); apply Forall_nil.
  - unfold is_u32, UINT_MAX. lia.
  - vm_compute. discriminate.
  - eexists. split; [exact E|]. intros adr B. change (v4_len 4294967200) with 0 in M. cbn in M.
    assert (m = (0, 0)) as -> by congruence. unfold addrInCidr, maskAdr. cbn [c_adr c_mask fst snd].
    rewrite !Z.land_0_r. reflexivity.
Qed.
Lemma garbage_length L a q : libc_ok L -> is_quad a q ->
  exists cd, parseCidr L (a ++ str "/24x") = Ok (Some cd).
Proof.
  intros ((P1 & P2) & _) Q. destruct (quad_facts _ _ Q) as (BQ & CH & LA). unfold parseCidr, cidrText.
  rewrite split_at_none.
  2:{ intros x H ->. rewrite !in_app_iff in H. destruct H as [H|H]; [apply CH in H; lia|cbn in H; intuition lia]. }
  cbn [obind]. rewrite firstn_all2.
  2:{ rewrite !app_length. change (length (str "::ffff:")) with 7%nat. change (length (str "/24x")) with 4%nat. unfold zlen in LA. lia. }
  change (str "/24x") with (47 :: str "24x"). rewrite app_assoc, split_app.
  2:{ rewrite in_app_iff. intros [H|H]; [cbn in H; intuition lia|]. apply CH in H. lia. }
  change (scanu (str "24x")) with (Some (24, str "x")). cbv iota beta. change (128 <? u32 (24 + 96)) with false. cbv iota.
  rewrite (P2 _ _ Q). eexists. reflexivity.
Qed.
Lemma bare_number L : pton L (str "::ffff:10") = Some [0; 0; 0; 0; 0; 0; 0; 0; 0; 0; 0; 0; 255; 255; 0; 16] ->
  exists cd, parseCidr L (str "10/8") = Ok (Some cd) /\ forall a, bytes 4 a -> addrInCidr cd (mapped a) = false.
Proof.
  intros P. unfold parseCidr. change (cidrText (str "10/8")) with (@Ok (chars * bool) (str "::ffff:10/8", true)).
  cbn [obind]. change (split_at 47 (str "::ffff:10/8")) with (Some (str "::ffff:10", str "8")). cbv iota beta.
  change (scanu (str "8")) with (Some (8, @nil Z)). cbv iota beta. change (128 <? u32 (8 + 96)) with false. cbv iota.
  rewrite P. change (u32 (8 + 96)) with 104. destruct (mask_ok 104 ltac:(lia)) as (m & -> & G). cbn [obind].
  eexists. split; [reflexivity|]. intros a B. apply not_true_is_false.
  assert (BB : bytes 16 [0; 0; 0; 0; 0; 0; 0; 0; 0; 0; 0; 0; 255; 255; 0; 16]) by (split; auto; repeat constructor; lia).
  rewrite in_cidr_model by auto using mapped_bytes. rewrite (G _ (mapped a)) by auto using mapped_bytes.
  unfold same_prefix. change (128 - 104) with 24. destruct B as (L4 & F).
  unfold mapped. rewrite network_app. replace (zlen a) with 4 by (unfold zlen; lia).
  change (256 ^ 4) with (256 * 2 ^ 24). rewrite Z.mul_assoc, Z.add_comm, Z.div_add by lia.
  apply network_bound in F. replace (zlen a) with 4 in F by (unfold zlen; lia).
  assert (0 <= network a / 2 ^ 24) by (apply Z.div_pos; lia).
  change (network [0; 0; 0; 0; 0; 0; 0; 0; 0; 0; 0; 0; 255; 255; 0; 16] / 2 ^ 24) with 255.
  change (network [0; 0; 0; 0; 0; 0; 0; 0; 0; 0; 255; 255] * 256) with 16776960. lia.
Qed.

(** An echo reply, and a flow for TCP *)
Definition ex_echo_reply : list Z :=
  [69; 0; 0; 28; 0; 0; 0; 0; 64; 1; 0; 0; 10; 0; 0; 1; 10; 0; 0; 2; 0; 0; 0; 0; 0; 0; 0; 0].
Definition ex_tcp_only : op := Define (mkArgs (str "t") 1 5 (Some [str "tcp"]) None None None None None 0).
Lemma echo_reply_taken : exists set ans k,
  run ex_lib [] [ex_tcp_only] = Ok (set, ans) /\ icmp_message ETH_IP ex_echo_reply 0 (mapped [10; 0; 0; 1]) (mapped [10; 0; 0; 2]) /\ getHashKey 1 0 ETH_IP ex_echo_reply = Ok (Some (16, k, None)) /\ flowLookup true set k ETH_IP (Some ex_echo_reply) 0 = Ok (5, 0) /\ flowLookup false set k ETH_IP (Some ex_echo_reply) 0 = Ok (0, 0).
Proof.
  do 3 eexists. split; [vm_compute; reflexivity|]. split.
  { left. split; auto. exists 20, [10; 0; 0; 1], [10; 0; 0; 2]. split; auto. split; auto.
    split.
    { split; [reflexivity|]. split; [reflexivity|]. split; [exists 69; split; [split; [lia|split; [vm_compute; discriminate|reflexivity]]|reflexivity]|].
      split; [lia|]. repeat split; try lia; vm_compute; try discriminate; reflexivity. }
    split.
    { exists 0, 0. split; [repeat split; try lia; vm_compute; try discriminate; reflexivity|]. repeat split; try lia; reflexivity. }
    split; [repeat split; try lia; vm_compute; try discriminate; reflexivity|vm_compute; discriminate]. }
  split; [vm_compute; reflexivity|]. split; vm_compute; reflexivity.
Qed.

(** Definitions that are refused: an unknown protocol, an address text
    without '/', no or too many address texts *)
Lemma protobits_unknown l : forall t u s, (exists p, In p l /\ forall q, ~ proto_text p q) -> protobits l t u s = None.
Proof.
  induction l as [|p l IH]; intros t u s (x & HI & N); [destruct HI|]. cbn [protobits].
  assert (P : forall n q, caseeq (str n) p = true -> Match_Spec.proto_name q (str n) -> Forall (fun c => 97 <= c <= 122) (str n) -> proto_text p q).
  { intros n q E Q L. exists (str n). split; auto. apply streq_eq in E. unfold any_case.
    assert (M : map lowercase (str n) = str n). { clear -L. induction L as [|c r H L IH]; cbn; auto. rewrite IH. unfold lowercase. replace ((65 <=? c) && (c <=? 90))%bool with false by lia. auto. }
    rewrite M in E. clear -E L. revert p E. induction L as [|c r H L IH]; intros [|d p] E; cbn in E; try discriminate; constructor.
    - assert (E' : c = lowercase d) by congruence. unfold lowercase in E'. destruct ((65 <=? d) && (d <=? 90))%bool eqn:B; [right; lia|left; auto].
    - apply IH. congruence. }
  destruct (caseeq (str "tcp") p) eqn:E1.
  { apply IH. exists x. split; auto. destruct HI as [->|HI]; auto. exfalso. apply (N 6). apply (P "tcp"%string); auto; [unfold Match_Spec.proto_name; auto|cbn; repeat constructor; lia]. }
  destruct (caseeq (str "udp") p) eqn:E2.
  { apply IH. exists x. split; auto. destruct HI as [->|HI]; auto. exfalso. apply (N 17). apply (P "udp"%string); auto; [unfold Match_Spec.proto_name; auto|cbn; repeat constructor; lia]. }
  destruct (caseeq (str "sctp") p) eqn:E3; auto.
  apply IH. exists x. split; auto. destruct HI as [->|HI]; auto. exfalso. apply (N 132). apply (P "sctp"%string); auto; [unfold Match_Spec.proto_name; auto|cbn; repeat constructor; lia].
Qed.
Lemma parseAll_bad L l : (exists s, In s l /\ ~ In 47 s) -> forall cs, parseAll L l <> Ok (Some cs).
Proof.
  induction l as [|a l IH]; intros (s & HI & N) cs; [destruct HI|]. cbn [parseAll]. destruct HI as [->|HI].
  - unfold parseCidr. destruct (cidrText s) as [[t v]| | |] eqn:E; cbn [obind]; try discriminate.
    assert (NT : ~ In 47 t).
    { unfold cidrText in E. destruct (split_at 58 s).
      - destruct (zlen s <? 128); [|discriminate]. assert (t = s) as -> by congruence. auto.
      - assert (t = firstn 127 (str "::ffff:" ++ s)) as -> by congruence. intros K. assert (K' : In 47 (str "::ffff:" ++ s)) by (rewrite <- (firstn_skipn 127 (str "::ffff:" ++ s)); apply in_or_app; left; exact K).
        clear K. rename K' into K. apply in_app_or in K. destruct K as [K|K]; auto.
        cbn in K. repeat (destruct K as [K|K]; [discriminate|]). destruct K. }
    destruct (split_at 47 t) as [[x y]|] eqn:ES; cbn [obind]; [|discriminate]. exfalso. apply NT. destruct (Match_Proofs.split_at_prefix _ _ _ _ ES) as (-> & _). apply in_or_app. right; left; auto.
  - destruct (parseCidr L a) as [[c|]| | |]; cbn [obind]; try discriminate. specialize (IH (ex_intro _ s (conj HI N))).
    destruct (parseAll L l) as [[cs'|]| | |]; cbn [obind]; try discriminate. intros _. apply (IH cs'). auto.
Qed.
Definition invalid (a : fargs) : Prop :=
  1024 <= zlen (a_name a) \/
  (exists ps p, a_protocols a = Some ps /\ In p ps /\ forall q, ~ proto_text p q) \/
  (exists l, (a_dsts a = Some l \/ a_srcs a = Some l) /\ (l = [] \/ 32 < zlen l \/ exists s, In s l /\ ~ In 47 s)).
Lemma cidrs_bad L l : (l = [] \/ 32 < zlen l \/ exists s, In s l /\ ~ In 47 s) -> forall cs, parseCidrs L l <> Ok (Some cs).
Proof.
  intros H cs. unfold parseCidrs. destruct (zlen l =? 0) eqn:E; [discriminate|]. destruct (32 <? zlen l) eqn:E2; [discriminate|].
  destruct H as [->|[H|H]]; [discriminate|lia|]. apply parseAll_bad. auto.
Qed.
Lemma invalid_refused L set a r set' : invalid a -> flowDefine L set a = Ok (r, set') -> r <> None /\ set' = set.
Proof.
  intros H E.
  assert (N : forall f, makeFlow L a <> Ok (inr f)).
  { intros f K. unfold makeFlow, MAX_NAME in K. destruct (1024 <=? zlen (a_name a)) eqn:E0; [discriminate|].
    destruct H as [H|[(ps & p & H1 & H2 & H3)|(l & H1 & H2)]]; [lia| |].
    - rewrite H1 in K. cbn [ifgiven] in K. unfold parseProtocol in K. rewrite protobits_unknown in K by eauto. discriminate.
    - destruct (ifgiven _ _ _) as [[e|p]| | |] in K; cbn [obind] in K; try discriminate.
      destruct (ifgiven _ _ _) as [[e|dp]| | |] in K; cbn [obind] in K; try discriminate.
      destruct (ifgiven _ _ _) as [[e|sp]| | |] in K; cbn [obind] in K; try discriminate.
      destruct H1 as [H1|H1].
      + rewrite H1 in K. cbn [ifgiven] in K. pose proof (cidrs_bad L l H2) as NB.
        destruct (parseCidrs L l) as [[c|]| | |]; cbn [obind] in K; try discriminate. apply (NB c). auto.
      + destruct (ifgiven _ _ _) as [[e|ds]| | |] in K; cbn [obind] in K; try discriminate.
        rewrite H1 in K. cbn [ifgiven] in K. pose proof (cidrs_bad L l H2) as NB.
        destruct (parseCidrs L l) as [[c|]| | |]; cbn [obind] in K; try discriminate. apply (NB c). auto. }
  unfold flowDefine in E. destruct (makeFlow L a) as [[e|f]| | |]; cbn [obind] in E; try discriminate.
  - assert (r = Some e /\ set' = set) as (-> & ->) by (split; congruence). split; auto. discriminate.
  - exfalso. apply (N f). auto.
Qed.
