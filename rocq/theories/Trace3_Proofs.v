(** Trace flows (C66): memory, listings, ICMP lines. *)
From Coq Require Import String Permutation.
From Verif Require Import Base Lists Cstr_Model Util_Spec Util_Proofs IpKey_Model IpKey_Spec IpKey_Proofs IpKey3_Proofs Match_Model Match_Spec Match_Proofs Flow_Model Flow_Spec Flow_Proofs Flow2_Proofs Flow3_Proofs
  Remote_Model FlowLb_Model FlowLb_Proofs Requests_Spec Requests_Proofs Print_Model Print_Spec Print4_Proofs Trace_Model Trace_Spec Trace_Proofs Trace2_Proofs.

(** ** Names in memory *)
Lemma zlen_cons {A} (x : A) l : zlen (x :: l) = zlen l + 1.
Proof. unfold zlen. cbn [length]. lia. Qed.
Lemma delete_length n : forall l, match flowDelete l n with (None, l') => l' = l | (Some _, l') => zlen l = zlen l' + 1 end.
Proof.
  induction l as [|f l IH]; [reflexivity|]. cbn [flowDelete]. destruct (named n f); [rewrite zlen_cons; lia|].
  destruct (flowDelete l n) as [[g|] l']; [rewrite !zlen_cons; lia|congruence].
Qed.
Lemma define_new L set now a set' : libc_ok L -> Inv L set now -> now (a_name a) = None -> flowDefine L set a = Ok (None, set') -> zlen set' = zlen set + 1.
Proof.
  intros (_ & _ & HS) (I1 & I2 & I3 & I4) N H. unfold flowDefine in H.
  destruct (makeFlow L a) as [[er|f]| | |] eqn:EM; cbn [obind] in H; try discriminate.
  unfold sortFlows in H. destruct (comparable (insertFlow f set)); cbn [obind] in H; [|discriminate]. injection H as <-.
  destruct (HS (insertFlow f set)) as (P & _). apply Permutation_length in P. unfold zlen. rewrite <- P.
  unfold insertFlow. destruct (replaceFlow f set) as [r|] eqn:E; [|rewrite app_length; cbn; lia].
  exfalso. destruct (replace_in f set I2 r E) as (X & _). apply in_map_iff in X. destruct X as (g & G1 & G2).
  destruct (I3 g G2) as (b & B & _). destruct (makeFlow_fields _ _ _ EM) as (FN & _). rewrite G1, FN, N in B. discriminate.
Qed.
Definition alive (o : option chars) : bool := match o with Some _ => true | None => false end.
Lemma filter_upd (l : list (option chars)) : forall i x, nth_error l i = Some (Some x) -> zlen (filter alive (upd l i None)) = zlen (filter alive l) - 1.
Proof.
  induction l as [|y l IH]; intros [|i] x H; try discriminate; cbn [upd filter nth_error] in *.
  - injection H as ->. cbn [alive]. rewrite zlen_cons. lia.
  - destruct (alive y); rewrite ?zlen_cons; erewrite IH by eauto; lia.
Qed.
Lemma no_replacement_before tr x : no_replacement (tr ++ [x]) -> no_replacement tr.
Proof. intros H tr1 c ev tr2 n -> A N. apply (H tr1 c ev (tr2 ++ [x]) n); auto. rewrite <- app_assoc. reflexivity. Qed.
Lemma no_leak L P may tr w : libc_ok L -> texec L P may tr w -> no_replacement tr ->
  in_memory w = zlen (x_set w) + (if x_free w =? 0 then 0 else 1).
Proof.
  intros HL X. unfold in_memory. fold alive. induction X as [|tr w m ev w' X IH M H]; intros NR; [reflexivity|].
  pose proof (no_replacement_before _ _ NR) as NR'. specialize (IH NR').
  pose proof (TI_exec L P may tr w HL X) as (now & ST & A & F). pose proof (stands_inv L _ _ HL ST) as INV.
  change (fun o : option chars => match o with Some _ => true | None => false end) with alive in *.
  destruct m as [c| |id eth data|id]; cbn [tstep] in H.
  - destruct (x_free w =? 0) eqn:F0; [|discriminate]. injection H as H. unfold traceRequest in H.
    destruct (c_action c) as [act|] eqn:AC; [|discriminate].
    destruct (streq act (str "trace-set")) eqn:ES.
    { apply streq_eq in ES. subst act. destruct (c_name c) as [n|] eqn:EN; [|discriminate].
      destruct (NR tr c ev [] n eq_refl AC EN) as (-> & NA).
      assert (NN : now n = None). { specialize (A n). destruct (now n) as [a|]; auto. destruct A as (d & A1 & _). pose proof (asked_fun _ _ _ _ A1 NA). discriminate. }
      destruct (flowDefine L (x_set w) (cmdArgs c n (zlen (x_names w ++ [Some n])))) as [[[e|] set]| | |] eqn:ED; try discriminate. injection H as <-.
      cbn [x_names x_set x_free]. rewrite F0, filter_app, zlen_app. cbn [filter alive]. rewrite (define_new L _ now (cmdArgs c n (zlen (x_names w ++ [Some n]))) set HL INV NN ED).
      rewrite IH. change (zlen [Some n]) with 1. lia. }
    destruct (streq act (str "trace-delete")) eqn:ED.
    { destruct (c_name c) as [n|] eqn:EN; [|injection H as <- <-; rewrite F0; auto].
      pose proof (delete_length n (x_set w)) as DL. pose proof (inv_delete L (x_set w) now n INV) as K.
      destruct (flowDelete (x_set w) n) as [[f|] set]; injection H as <- <-; [|rewrite F0; auto]. cbn [x_names x_set x_free].
      destruct K as (_ & K). destruct (now n) as [b|] eqn:EB; [|discriminate]. injection K as K _. specialize (A n). rewrite EB in A.
      destruct A as (d & _ & _ & _ & A4). apply nameAt_range in A4. rewrite K. destruct (a_ref b =? 0) eqn:EZ; [apply Z.eqb_eq in EZ|]; lia. }
    destruct (streq act (str "trace-list")); [destruct (flowSetPrint _ _ _); try discriminate; injection H as <- <-; rewrite F0; auto|].
    destruct (streq act (str "trace-list-names")); injection H as <- <-; rewrite F0; auto.
  - destruct (x_free w =? 0) eqn:F0; [discriminate|]. destruct (nameAt w (x_free w)) as [n|] eqn:EN; [|discriminate]. injection H as <- <-. cbn [x_names x_set x_free].
    rewrite Z.eqb_refl. pose proof (nameAt_range _ _ _ EN) as R. unfold nameAt in EN. destruct (znth (x_names w) (x_free w - 1)) as [[k|]|] eqn:EZ; try discriminate.
    unfold znth, zupd in *. destruct (x_free w - 1 <? 0) eqn:NEG; [discriminate|]. rewrite (filter_upd _ _ _ EZ). lia.
  - destruct (existsb _ _); [discriminate|]. injection H as H. unfold traceLookup in H.
    destruct (getHashKey _ _ _ _) as [[[[rc k] fi]|]| | |]; try discriminate; [|injection H as <- _; auto].
    destruct (_ =? 2); [injection H as <- _; auto|]. destruct (flowLookup _ _ _ _ _ _) as [[r u]| | |]; try discriminate.
    destruct (r =? 0); injection H as <- _; auto.
  - destruct (find _ _) as [p|]; [|discriminate]. destruct (nameAt w (fd_ref p)); [|discriminate].
    destruct (printIcmp _ _); try discriminate. injection H as <- _. auto.
Qed.

(** ** Listings *)
Lemma trace_listed L P may tr w c ev w' : libc_ok L -> ntop_ok L P -> refname P = None -> texec L P may tr w ->
  (forall n c, asked tr n (Some c) -> typed (cmdArgs c n 0) /\ listable (cmdArgs c n 0) /\ no_wraps (cmdArgs c n 0)) ->
  is_action c "trace-list" -> c_name c = None -> tstep L P w (TRequest c) = Some (TCont w' ev) ->
  exists s vs now, ev = Answer s /\ json_text s (JArr vs) /\ requested tr now /\ listing L (fun _ => None) now vs.
Proof.
  intros HL NT RN X LS AC CN S. pose proof (TI_exec L P may tr w HL X) as (now & (ops & ans & R & ->) & A & F).
  destruct (set_listed L P ops (x_set w) ans HL NT) as (s & vs & E & J & LI); auto.
  - intros r t. unfold target. rewrite RN. discriminate.
  - intros n a E. specialize (A n). rewrite E in A. destruct A as (d & A1 & A2 & A3 & _). specialize (LS n d A1). rewrite A3. exact LS.
  - cbn [tstep] in S. destruct (x_free w =? 0); [|discriminate]. injection S as S. unfold traceRequest in S. rewrite AC, CN, E in S.
    change (streq (str "trace-list") (str "trace-set")) with false in S. change (streq (str "trace-list") (str "trace-delete")) with false in S.
    rewrite streq_refl in S. injection S as _ <-. exists s, vs, (current ops ans). split; auto. split; auto. split.
    + intros n. specialize (A n). destruct (current ops ans n) as [a|]; auto. destruct A as (d & A1 & A2 & A3 & _). exists d. split; auto. rewrite A3. apply cmd_as.
    + unfold target in LI. rewrite RN in LI. exact LI.
Qed.
Lemma trace_names L P may tr w c ev w' : libc_ok L -> texec L P may tr w -> (forall n c, asked tr n (Some c) -> clean n) ->
  is_action c "trace-list-names" -> tstep L P w (TRequest c) = Some (TCont w' ev) ->
  exists s ns, ev = Answer s /\ json_text s (strings ns) /\ NoDup ns /\ forall n, In n ns <-> exists d, asked tr n (Some d).
Proof.
  intros HL X CL AC S. pose proof (TI_exec L P may tr w HL X) as (now & (ops & ans & R & ->) & A & F).
  destruct (names_listed L ops (x_set w) ans HL R) as (ns & J & ND & IN).
  - intros n a E. specialize (A n). rewrite E in A. destruct A as (d & A1 & _). eauto.
  - cbn [tstep] in S. destruct (x_free w =? 0); [|discriminate]. injection S as S. unfold traceRequest in S. rewrite AC in S.
    change (streq (str "trace-list-names") (str "trace-set")) with false in S. change (streq (str "trace-list-names") (str "trace-delete")) with false in S.
    change (streq (str "trace-list-names") (str "trace-list")) with false in S.
    rewrite streq_refl in S. injection S as _ <-. exists (flowSetPrintNames (x_set w)), ns. split; auto. split; auto. split; auto.
    intros n. rewrite IN. specialize (A n). split.
    + intros (a & E). rewrite E in A. destruct A as (d & A1 & _). eauto.
    + intros (d & E). destruct (current ops ans n) as [a|]; eauto. pose proof (asked_fun _ _ _ _ A E). discriminate.
Qed.

(** ** ICMP lines *)
Lemma echo_line eth data id seq : echo eth data id seq ->
  printIcmp eth data = Ok (twoNumbers (if eth =? ETH_IP then "ICMP_ECHO: id=" else "ICMP6_ECHO_REQUEST: id=") id ", seq=" seq).
Proof.
  intros (l4 & src & dst & i1 & i2 & s1 & s2 & H & A1 & A2 & -> & ->). unfold printIcmp.
  pose proof (at_len _ _ _ A2) as LN. cbn [zlen length] in LN. unfold zlen in LN at 1. cbn in LN.
  destruct H as [(-> & (L1 & L2 & (b0 & B & B4) & B5 & P1 & P2) & T)|(-> & -> & (L1 & L2 & N & _) & T)].
  - change (ETH_IP =? 2048) with true. change (ETH_IP =? ETH_IP) with true. cbv iota. unfold printIcmp4, in_bounds.
    destruct (0 + 20 <? zlen data) eqn:E; [|lia]. cbn [negb]. rewrite (at_aget _ _ _ B). cbn [obind].
    destruct (b0 mod 16 <? 5) eqn:E5; [lia|]. change (0 + 9) with 9 in P1. rewrite (at_aget _ _ _ P1). cbn [obind].
    change (1 =? 1) with true. cbn [negb]. replace (4 * (b0 mod 16)) with l4 by lia. rewrite (at_aget _ _ _ T). cbn [obind].
    change (8 =? 3) with false. change (8 =? 8) with true. cbv iota.
    rewrite (rdn_at_n _ _ 2 _ A1 eq_refl), (rdn_at_n _ _ 2 _ A2 eq_refl). reflexivity.
  - change (ETH_IPV6 =? 2048) with false. change (ETH_IPV6 =? 34525) with true. change (ETH_IPV6 =? ETH_IP) with false. cbv iota. unfold printIcmp6, in_bounds.
    destruct (0 + 40 <? zlen data) eqn:E; [|lia]. cbn [negb]. change (0 + 6) with 6 in N. rewrite (at_aget _ _ _ N). cbn [obind].
    cbn [ext_loop]. change (is_ext 58) with false. cbn [negb obind]. change (58 =? 58) with true. cbn [negb]. rewrite (at_aget _ _ _ T). cbn [obind].
    change (128 =? 2) with false. change (128 =? 128) with true. cbv iota.
    rewrite (rdn_at_n _ _ 2 _ A1 eq_refl), (rdn_at_n _ _ 2 _ A2 eq_refl). reflexivity.
Qed.
(** Nothing is written, and nothing outside is read, for other protocols. *)
Lemma l4_line eth data p src dst l4 : is_l4 p = true -> l4_packet eth data p src dst l4 -> l4 + 4 <= zlen data -> printIcmp eth data = Ok [].
Proof.
  intros PP [(-> & s & d & -> & -> & H & F)|(-> & -> & H)] LN; unfold printIcmp.
  - destruct H as (L1 & L2 & (b0 & B & B4) & B5 & P1 & P2). change (ETH_IP =? 2048) with true. cbv iota. unfold printIcmp4, in_bounds.
    destruct (0 + 20 <? zlen data) eqn:E; [|lia]. cbn [negb]. rewrite (at_aget _ _ _ B). cbn [obind].
    destruct (b0 mod 16 <? 5) eqn:E5; [lia|]. change (0 + 9) with 9 in P1. rewrite (at_aget _ _ _ P1). cbn [obind].
    unfold is_l4 in PP. replace (p =? 1) with false by lia. reflexivity.
  - destruct H as (L1 & L2 & N & _). change (ETH_IPV6 =? 2048) with false. change (ETH_IPV6 =? 34525) with true. cbv iota. unfold printIcmp6, in_bounds.
    destruct (0 + 40 <? zlen data) eqn:E; [|lia]. cbn [negb]. change (0 + 6) with 6 in N. rewrite (at_aget _ _ _ N). cbn [obind].
    cbn [ext_loop]. unfold is_l4 in PP. replace (is_ext p) with false by (unfold is_ext; lia). cbn [negb obind].
    replace (p =? 58) with false by lia. reflexivity.
Qed.

(** ** Executions by computation *)
Fixpoint played (L : libc) (P : printer) (w : tworld) (ms : list tmove) : option (list (tmove * tevent) * tworld) :=
  match ms with
  | [] => Some ([], w)
  | m :: ms' =>
      match tstep L P w m with
      | Some (TCont w' ev) => match played L P w' ms' with Some (tr, r) => Some ((m, ev) :: tr, r) | None => None end
      | _ => None
      end
  end.
Lemma played_from L P (may : tworld -> tmove -> Prop) ms : (forall w m, In m ms -> may w m) -> forall tr0 w0 tr w,
  texec L P may tr0 w0 -> played L P w0 ms = Some (tr, w) -> texec L P may (tr0 ++ tr) w.
Proof.
  induction ms as [|m ms IH]; intros HM tr0 w0 tr w X H; cbn [played] in H.
  - injection H as <- <-. rewrite app_nil_r. auto.
  - destruct (tstep L P w0 m) as [[w1 ev| |]|] eqn:E; try discriminate. destruct (played L P w1 ms) as [[tr1 w2]|] eqn:E2; [|discriminate].
    injection H as <- <-. replace (tr0 ++ (m, ev) :: tr1) with ((tr0 ++ [(m, ev)]) ++ tr1) by (rewrite <- app_assoc; reflexivity).
    eapply IH; eauto; [intros; apply HM; right; auto|]. econstructor; eauto. apply HM. left. auto.
Qed.
Lemma played_ok L P (may : tworld -> tmove -> Prop) ms tr w : (forall w m, In m ms -> may w m) -> played L P tstart ms = Some (tr, w) -> texec L P may tr w.
Proof. intros HM H. apply (played_from L P may ms HM [] tstart tr w); auto. constructor. Qed.
