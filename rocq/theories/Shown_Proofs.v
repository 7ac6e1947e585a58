(** The trace of a packet (C88). *)
From Coq Require Import String.
From Verif Require Import Base Lists Cstr_Model IpKey_Model IpKey_Spec IpKey_Proofs Maglev_Model Rangeset_Model Rangeset_Spec Rangeset2_Proofs Match_Spec Flow_Model Flow_Proofs Flow2_Proofs
  FlowLb_Model FlowLb4_Proofs FlowLb5_Proofs Fwmark_Spec Print_Model Print_Spec Trace_Model Trace3_Proofs Shm5_Proofs Shown_Model Shown_Spec.
From Verif Require Shm_Model Frag_Model FlowLb_Proofs Frags2_Proofs.

(** ** Numbers *)
Lemma shows_ok v : is_mark v -> shows (Shm_Model.sdec v) v.
Proof.
  intros (A & B). unfold shows, Shm_Model.sdec. destruct (v <? 0) eqn:E.
  - right. exists (dec (- v)). split; [reflexivity|]. split; [apply dec_ok; unfold is_u32, UINT_MAX; lia|lia].
  - left. apply dec_ok. unfold is_u32, UINT_MAX. lia.
Qed.
Lemma ln_line s : ln s = line s.
Proof. reflexivity. Qed.
Lemma told_in n l x : In x l -> In x (told (Some n) l).
Proof. auto. Qed.
Lemma on_in mask m l : Z.land mask m <> 0 -> on mask m l = l.
Proof. intros H. unfold on. apply Z.eqb_neq in H. rewrite H. reflexivity. Qed.
Lemma on_0 m l : on 0 m l = [].
Proof. reflexivity. Qed.

(** ** Runs *)
Lemma act_inv l f s r s' ev : runp (Act l f) s = Some (r, s', ev) -> exists e s1 p e', f s = Next e s1 p /\ runp p s1 = Some (r, s', e') /\ ev = e ++ e'.
Proof.
  cbn [runp]. destruct (f s) as [e s1 p| |]; cbn [runr]; try discriminate. destruct (runp p s1) as [[[r1 s2] e2]|] eqn:E; [|discriminate].
  intros H. injection H as <- <- <-. exists e, s1, p, e2. auto.
Qed.
Lemma read_inv reg hash k s r s' ev : runp (readTable reg hash k) s = Some (r, s', ev) ->
  exists g fw, reg s = Some g /\ tableMark (t_mem s g) hash = Ok fw /\ runp (k fw) s = Some (r, s', ev).
Proof.
  unfold readTable. intros H. destruct (act_inv _ _ _ _ _ _ H) as (e & s1 & p & e' & E & R & ->). destruct (reg s) as [g|] eqn:G; [|discriminate]. exists g.
  destruct (mM (t_mem s g) =? 0) eqn:M; [discriminate|]. destruct (aget (mlookup (t_mem s g)) (hash mod mM (t_mem s g))) as [i| | |] eqn:L; try discriminate.
  unfold tableMark. rewrite M, L. cbn [obind]. destruct (i <? 0) eqn:I.
  - injection E as <- <- <-. exists i. auto.
  - injection E as <- <- <-. destruct (act_inv _ _ _ _ _ _ R) as (e2 & s2 & p2 & e2' & E2 & R2 & ->). rewrite G in E2.
    destruct (aget (mactive (t_mem s g)) i) as [fw| | |]; try discriminate. injection E2 as <- <- <-. exists fw. auto.
Qed.
(** What a release leaves as it was *)
Definition same (s t : state) : Prop := t_mem t = t_mem s /\ t_ft t = t_ft s.
Lemma release_inv l a k s r s' ev : a <> 0 -> runp (release l a k) s = Some (r, s', ev) ->
  exists s1 e', same s s1 /\ runp k s1 = Some (r, s', e') /\ In (Gave a) ev.
Proof.
  intros A. unfold release. apply Z.eqb_neq in A. rewrite A. intros H. destruct (act_inv _ _ _ _ _ _ H) as (e & s1 & p & e' & E & R & ->).
  destruct (deref s a) as [o|]; [|discriminate]. destruct (s32 (lb_ref o - 1) <? 0); [discriminate|]. destruct (s32 (lb_ref o - 1) =? 0).
  - injection E as <- <- <-. destruct (act_inv _ _ _ _ _ _ R) as (e2 & s2 & p2 & e2' & E2 & R2 & ->). clear H R. destruct (deref _ a); [|discriminate]. destruct (unlink _ _ a) as [l'|]; [|discriminate].
    injection E2 as <- <- <-. destruct (act_inv _ _ _ _ _ _ R2) as (e3 & s3 & p3 & e3' & E3 & R3 & ->). destruct (deref _ a) as [o3|]; [|discriminate]. injection E3 as <- <- <-.
    eexists _, _. split; [|split; [exact R3|left; reflexivity]]. split; reflexivity.
  - injection E as <- <- <-. eexists _, _. split; [|split; [exact R|left; reflexivity]]. split; reflexivity.
Qed.
Lemma trace_inv h a k s r s' ev : runp (traceTarget h a k) s = Some (r, s', ev) -> runp k s = Some (r, s', ev).
Proof.
  unfold traceTarget. destruct (h_trace h); [|auto]. intros H. destruct (act_inv _ _ _ _ _ _ H) as (e & s1 & p & e' & E & R & ->).
  destruct (deref s a); [|discriminate]. injection E as <- <- <-. exact R.
Qed.
(** What taking references leaves as it was *)
Definition alike (s t : state) : Prop := same s t /\ t_set t = t_set s /\
  forall a o, deref t a = Some o -> exists o', deref s a = Some o' /\ lb_target o' = lb_target o /\ lb_region o' = lb_region o.
Lemma alike_refl s : alike s s.
Proof. split; [split; reflexivity|]. split; [reflexivity|]. eauto. Qed.
Lemma lock_alike s t a t' : alike s t -> lockRef t a = Some t' -> alike s t'.
Proof.
  intros ((M & F) & S & D). unfold lockRef. destruct (deref t a) as [o|] eqn:E; [|discriminate]. intros H. injection H as <-.
  split; [split; assumption|]. split; [exact S|]. intros b x. rewrite (FlowLb_Proofs.deref_put _ _ _ _ _ E). cbn [lb_freed]. destruct (Z.eqb_spec b a) as [->|N]; [|intros H; exact (D b x H)].
  destruct (lb_freed o); [discriminate|]. intros H. injection H as <-. exact (D a o E).
Qed.
Lemma lookup_inv h k eth data u kont s t r s' ev : alike s t -> runp (lookup h k eth data u kont) t = Some (r, s', ev) ->
  exists a u' t' e', flowLookup (h_ping h) (t_set s) k eth (Some data) u = Ok (a, u') /\ alike s t' /\ runp (kont a u') t' = Some (r, s', e') /\ incl e' ev.
Proof.
  intros AL H. destruct (act_inv _ _ _ _ _ _ H) as (e & s1 & p & e' & E & R & ->). rewrite (proj1 (proj2 AL)) in E.
  destruct (flowLookup _ _ _ _ _ _) as [[a u']| | |]; try discriminate. exists a, u'. destruct (a =? 0) eqn:A.
  - injection E as <- <- <-. exists t, e'. replace a with 0 by lia. repeat (split; auto). apply incl_refl.
  - destruct (lockRef t a) as [t'|] eqn:LK; [|discriminate]. injection E as <- <- <-. exists t', e'. split; [reflexivity|]. split; [eapply lock_alike; eauto|]. split; [exact R|]. apply incl_appr, incl_refl.
Qed.

(** ** The text of a packet that is forwarded *)
Definition unnamed_mark (h : hconf) (l : list chars) (v : Z) : Prop :=
  (exists x, In x l /\ sent_line v x) \/ v = h_nolb h /\ In (line (str "Failed flowLookup")) l \/ v = h_notargets h.
Definition failing (rc v : Z) (l : list chars) : Prop := Z.land rc 1 <> 0 /\ v = -1 /\ In failed l.
Lemma used_in mask t k len fw : Z.land mask TRACE_PACKET <> 0 -> 0 <= fw -> is_mark fw -> exists x, In x (usedText mask t k len fw) /\ sent_line fw x.
Proof.
  intros M P I. eexists. split.
  - unfold usedText. rewrite on_in. { apply Z.eqb_neq in M. rewrite M. right. left. reflexivity. }
    intros H. apply M. unfold TRACE_PACKET, TRACE_SCTP in *. apply Z.bits_inj'. intros n N. apply (f_equal (fun z => Z.testbit z n)) in H.
    rewrite Z.land_spec, Z.lor_spec, Z.bits_0 in H. rewrite Z.land_spec, Z.bits_0. destruct (Z.testbit mask n); [|reflexivity]. cbn [andb] in *. apply Bool.orb_false_iff in H. exact (proj1 H).
  - exists (dec (kproto k)), (dec len), (dec fw). split; [apply dec_ok; unfold is_mark in I; unfold is_u32, UINT_MAX; lia|reflexivity].
Qed.
Lemma forward_text h mask tn s t now done len rc k fi a v s' ev : alike s t -> runp (forward h now done rc k fi a) t = Some (Verdict v, s', ev) -> is_mark v ->
  exists l, forwardText h mask tn s now done len rc k fi a = Ok l /\
    (tn <> None -> mark_told s ev l v \/ failing rc v l) /\
    (Z.land mask TRACE_PACKET <> 0 -> unnamed_mark h l v \/ Z.land rc 1 <> 0 /\ v = -1) /\
    (mask = 0 -> tn = None -> l = []).
Proof.
  intros AL R IM. unfold forward in R. unfold forwardText. destruct (a =? 0) eqn:A.
  { injection R as <- <- <-. eexists. split; [reflexivity|]. split; [|split].
    - intros T. destruct tn as [n|]; [|congruence]. left. eexists _, None. split; [apply in_or_app; right; left; reflexivity|]. split; [apply t_none, shows_ok, IM|]. discriminate.
    - intros M. left. right. left. split; [reflexivity|]. rewrite on_in by exact M. left. reflexivity.
    - intros -> ->. reflexivity. }
  destruct (read_inv _ _ _ _ _ _ _ R) as (g & fw & G & TM & R1). clear R. apply Z.eqb_neq in A. destruct (release_inv _ _ _ _ _ _ _ A R1) as (s1 & e1 & (S1 & S2) & R2 & GV). clear R1.
  apply trace_inv in R2. unfold lbRegion in G. destruct (deref t a) as [o|] eqn:D; [|discriminate]. injection G as <-.
  destruct AL as ((M & F) & S & DD). destruct (DD a o D) as (o' & D1 & D2 & D3). rewrite D1. rewrite <- M, D3, TM. cbn [obind].
  assert (TG : forall n, Some (lb_target o') = Some n -> exists a o, In (Gave a) ev /\ deref s a = Some o /\ lb_target o = n) by (intros n Q; injection Q as <-; eauto).
  destruct (fw <? 0) eqn:N.
  { injection R2 as <- <- <-. eexists. split; [reflexivity|]. split; [|split].
    - intros T. destruct tn as [n|]; [|congruence]. left. eexists _, (Some (lb_target o')). split; [left; reflexivity|]. split; [apply t_servers, shows_ok, IM|exact TG].
    - intros MM. left. right. right. reflexivity.
    - intros _ ->. reflexivity. }
  destruct (Z.land rc 1 =? 0) eqn:RC.
  { injection R2 as <- <- <-. eexists. split; [reflexivity|]. split; [|split].
    - intros T. destruct tn as [n|]; [|congruence]. left. eexists _, (Some (lb_target o')). split; [left; reflexivity|]. split; [apply t_target, shows_ok, IM|exact TG].
    - intros MM. left. left. destruct (used_in mask (lb_target o') k len fw MM ltac:(lia) IM) as (x & X1 & X2). exists x. split; [apply in_or_app; right; exact X1|exact X2].
    - intros -> ->. reflexivity. }
  unfold firstFragment in R2. unfold firstText. destruct fi as [id|]; [|discriminate]. destruct (act_inv _ _ _ _ _ _ R2) as (e & s2 & p & e' & E & R & _). rewrite S2, F in E.
  destruct (Frag_Model.call_op _ _ _ _) as [[ft ob]| | |]; try discriminate. destruct (retOf ob) as [[rc2 ov]|]; [|discriminate]. injection E as <- <- <-. injection R as <- _ _. cbn [obind fst snd].
  eexists. split; [reflexivity|]. apply Z.eqb_neq in RC. destruct (rc2 =? 0) eqn:R0.
  - split; [|split].
    + intros T. destruct tn as [n|]; [|congruence]. left. eexists _, (Some (lb_target o')). split; [left; reflexivity|]. split; [apply t_target, shows_ok, IM|exact TG].
    + intros MM. left. left. destruct (used_in mask (lb_target o') k len fw MM ltac:(lia) IM) as (x & X1 & X2). exists x. split; [apply in_or_app; right; apply in_or_app; right; exact X1|exact X2].
    + intros -> ->. cbn [told on app]. rewrite app_nil_r. unfold usedText. rewrite !app_nil_r. change (on 0 TRACE_FRAG [ln (str "First fragment")]) with (@nil chars). cbn [app].
      induction (handedOf ob) as [|d dl IH]; [reflexivity|exact IH].
  - split; [|split].
    + intros T. destruct tn as [n|]; [|congruence]. right. split; [exact RC|]. split; [reflexivity|]. apply in_or_app. right. apply in_or_app. left. apply in_or_app. right. apply in_or_app. right. apply in_or_app. right. left. reflexivity.
    + intros MM. right. auto.
    + intros -> ->. cbn [told app]. rewrite !app_nil_r. change (on 0 TRACE_FRAG [ln (str "First fragment")]) with (@nil chars). cbn [app].
      induction (handedOf ob) as [|d dl IH]; [reflexivity|exact IH].
Qed.

(** ** The handler *)
Lemma told_more s ev e r l r2 v : incl e ev -> mark_told s e l v -> mark_told s ev (r ++ l ++ r2) v.
Proof.
  intros I (x & t & X & T & N). exists x, t. split; [apply in_or_app; right; apply in_or_app; left; exact X|]. split; [exact T|]. intros n E. destruct (N n E) as (a & o & G & D). exists a, o. auto.
Qed.
Lemma classify_text h P mask w s now done eth data rc k fi tn v s' ev : runp (classify h now done eth data rc k fi) s = Some (Verdict v, s', ev) -> is_mark v ->
  getHashKey (S (length data)) 0 eth data = Ok (Some (rc, k, fi)) ->
  traceName mask w k eth data = Ok tn -> (tn <> None -> exists c, printIcmp eth data = Ok c) ->
  exists l, classifyText h P mask w s now done eth data rc k fi = Ok l /\
    (forall n c, tn = Some n -> printIcmp eth data = Ok c -> exists r, l = [matchLine n] ++ (match c with [] => [] | _ => [c] end) ++ [packetLine P (protoText (kproto k)) (zlen data) k] ++ r /\
       (mark_told s ev r v \/ failing rc v r \/ kproto k = 17 /\ v = -1 /\ (In failed r \/ exists u, u <> 0 /\ getHashKey (S (length data)) u eth data = Ok None))) /\
    (Z.land mask TRACE_PACKET <> 0 -> unnamed_mark h l v \/ Z.land rc 1 <> 0 /\ v = -1 \/ kproto k = 17 /\ v = -1) /\
    (mask = 0 -> tn = None -> l = []).
Proof.
  intros R IM GK TN IC. unfold classify in R. destruct (lookup_inv _ _ _ _ _ _ _ _ _ _ _ (alike_refl s) R) as (a & u & t & e & FL & AL & R1 & IE). clear R.
  unfold classifyText. rewrite FL, TN. cbn [obind].
  assert (PT : exists l1, packetText P tn eth data k u = Ok l1 /\ (tn = None -> l1 = []) /\
    forall n c, tn = Some n -> printIcmp eth data = Ok c -> exists r, l1 = [matchLine n] ++ (match c with [] => [] | _ => [c] end) ++ [packetLine P (protoText (kproto k)) (zlen data) k] ++ r).
  { destruct tn as [n|]; [|exists []; split; [reflexivity|]; split; [auto|discriminate]]. destruct (IC ltac:(discriminate)) as (c & C). cbn [packetText]. rewrite C. cbn [obind].
    eexists. split; [reflexivity|]. split; [discriminate|]. intros n1 c1 Q Q1. injection Q as <-. injection Q1 as <-. eexists. reflexivity. }
  destruct PT as (l1 & -> & L0 & L1). cbn [obind].
  destruct ((kproto k =? 17) && (kdport k =? u))%bool eqn:B.
  - apply Bool.andb_true_iff in B. destruct B as (B & _). apply Z.eqb_eq in B. destruct (getHashKey (S (length data)) u eth data) as [[[[rc' k'] fi']|]| | |] eqn:G; try discriminate.
    + destruct (lookup_inv _ _ _ _ _ _ _ _ _ _ _ AL R1) as (a2 & u2 & t2 & e2 & FL2 & AL2 & R2 & IE2). rewrite FL2.
      destruct (forward_text h mask tn s t2 now done (zlen data) rc' k' _ a2 v s' e2 AL2 R2 IM) as (l4 & -> & T1 & T2 & T3). cbn [obind].
      eexists. split; [reflexivity|]. split; [|split].
      * intros n c Q Q1. destruct (L1 n c Q Q1) as (r1 & ->). eexists. split; [rewrite <- !app_assoc; reflexivity|]. destruct (T1 ltac:(congruence)) as [T|(_ & T & F)].
        -- left. match goal with |- mark_told _ _ (?r1 ++ ?r2 ++ ?r3 ++ l4) _ => replace (r1 ++ r2 ++ r3 ++ l4) with ((r1 ++ r2 ++ r3) ++ l4 ++ []) by (rewrite <- !app_assoc, app_nil_r; reflexivity) end.
           eapply told_more; [|exact T]. eapply incl_tran; eauto.
        -- right. right. split; [exact B|]. split; [exact T|]. left. apply in_or_app. right. apply in_or_app. right. apply in_or_app. right. exact F.
      * intros M. destruct (T2 M) as [[(x & X & Y)|[(X & Y)|X]]|(_ & X)].
        -- left. left. exists x. split; [|exact Y]. apply in_or_app. right. apply in_or_app. right. apply in_or_app. right. exact X.
        -- left. right. left. split; [exact X|]. apply in_or_app. right. apply in_or_app. right. apply in_or_app. right. exact Y.
        -- left. right. right. exact X.
        -- right. right. auto.
      * intros -> Q. rewrite (L0 Q), (T3 eq_refl Q). destruct (a2 =? 0); reflexivity.
    + injection R1 as <- <- <-. eexists. split; [reflexivity|]. split; [|split].
      * intros n c Q Q1. destruct (L1 n c Q Q1) as (r1 & ->). eexists. split; [rewrite <- !app_assoc; reflexivity|]. right. right. split; [exact B|]. split; [reflexivity|]. right. exists u. split; [|exact G].
        intros ->. rewrite GK in G. discriminate.
      * intros M. right. right. auto.
      * intros -> Q. rewrite (L0 Q). reflexivity.
  - destruct (forward_text h mask tn s t now done (zlen data) rc k fi a v s' e AL R1 IM) as (l4 & -> & T1 & T2 & T3). cbn [obind].
    eexists. split; [reflexivity|]. split; [|split].
    + intros n c Q Q1. destruct (L1 n c Q Q1) as (r1 & ->). eexists. split; [rewrite <- !app_assoc; reflexivity|]. destruct (T1 ltac:(congruence)) as [T|(X & T & F)].
      * left. replace (r1 ++ l4) with (r1 ++ l4 ++ []) by (rewrite app_nil_r; reflexivity). eapply told_more; eauto.
      * right. left. split; [exact X|]. split; [exact T|]. apply in_or_app. right. exact F.
    + intros M. destruct (T2 M) as [[(x & X & Y)|[(X & Y)|X]]|X].
      * left. left. exists x. split; [|exact Y]. apply in_or_app. right. exact X.
      * left. right. left. split; [exact X|]. apply in_or_app. right. exact Y.
      * left. right. right. exact X.
      * right. left. exact X.
    + intros -> Q. rewrite (L0 Q), (T3 eq_refl Q). reflexivity.
Qed.

Lemma find_app_none {A} (f : A -> bool) r : forall l, (forall x, In x l -> f x = false) -> find f (l ++ r) = find f r.
Proof. induction l as [|x l IH]; intros H; [reflexivity|]. cbn [find app]. rewrite (H x); [|left; reflexivity]. apply IH. intros y Y. apply H. right. exact Y. Qed.
(** The trace flow that was found and shown *)
Lemma trace_shown L P mask w id eth data w1 w2 n c rc k fi : Z.land mask TRACE_FLOWS <> 0 -> tstep L P w (TLookup id eth data) = Some (TCont w1 Found) -> tstep L P w1 (TWrite id) = Some (TCont w2 (Wrote n c)) ->
  getHashKey (S (length data)) 0 eth data = Ok (Some (rc, k, fi)) -> traceName mask w k eth data = Ok (Some n) /\ printIcmp eth data = Ok c /\ Z.land rc 3 <> 2.
Proof.
  intros M H1 H2 GK. cbn [tstep] in H1. destruct (existsb (isFd id) (x_pk w)) eqn:EX; [discriminate|]. unfold traceLookup in H1. rewrite GK in H1.
  destruct (Z.land rc 3 =? 2) eqn:R3; [discriminate|]. destruct (flowLookup true (x_set w) k eth (Some data) 0) as [[a u]| | |] eqn:F; try discriminate. destruct (a =? 0) eqn:A; [discriminate|].
  injection H1 as <-. cbn [tstep x_pk] in H2. rewrite find_app_none in H2.
  - cbn [find] in H2. unfold isFd at 1 in H2. cbn [fd_id] in H2. rewrite Z.eqb_refl in H2. cbn [fd_ref fd_eth fd_data] in H2. unfold nameAt in H2. cbn [x_names] in H2. fold (nameAt w a) in H2.
    destruct (nameAt w a) as [n'|] eqn:NA; [|discriminate]. destruct (printIcmp eth data) as [c'| | |]; try discriminate. injection H2 as _ -> ->.
    unfold traceName. apply Z.eqb_neq in M. rewrite M, F, A, NA. split; [reflexivity|]. split; [reflexivity|lia].
  - intros x X. destruct (isFd id x) eqn:Q; [|reflexivity]. assert (existsb (isFd id) (x_pk w) = true) by (apply existsb_exists; eauto). congruence.
Qed.
