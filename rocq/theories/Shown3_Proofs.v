(** The trace of a packet (C88): sctp, and fragments handed back. *)
From Coq Require Import String.
From Verif Require Import Base Lists Cstr_Model IpKey_Model IpKey_Spec IpKey_Proofs Maglev_Model Rangeset_Model Rangeset_Spec Rangeset2_Proofs Match_Spec Match_Proofs Flow_Model Flow_Proofs Flow2_Proofs
  FlowLb_Model FlowLb4_Proofs FlowLb5_Proofs Fwmark_Spec Print_Model Print_Spec Trace_Model Trace3_Proofs Shm5_Proofs Shown_Model Shown_Spec Shown_Proofs Shown2_Proofs.
From Verif Require Frag_Model FlowLb_Proofs.

Lemma sctp_used mask t k len fw : Z.land mask 16 <> 0 -> kproto k = 132 -> 0 <= fw -> is_mark fw -> exists x, In x (usedText mask t k len fw) /\ sent_line fw x.
Proof.
  intros M K P I. exists (ln (str "Packet; proto=" ++ dec (kproto k) ++ str ", len=" ++ dec len ++ str ", fwmark=" ++ dec fw)). split.
  - unfold usedText. rewrite on_in.
    + rewrite K. change (132 =? 132) with true. destruct (Z.land mask TRACE_PACKET =? 0); right; left; reflexivity.
    + intros H. apply M. unfold TRACE_PACKET, TRACE_SCTP in *. apply Z.bits_inj'. intros n N. apply (f_equal (fun z => Z.testbit z n)) in H.
      rewrite Z.land_spec, Z.lor_spec, Z.bits_0 in H. rewrite Z.land_spec, Z.bits_0. destruct (Z.testbit mask n); [|reflexivity]. cbn [andb] in *. apply Bool.orb_false_iff in H. exact (proj2 H).
  - exists (dec (kproto k)), (dec len), (dec fw). split; [apply dec_ok; unfold is_mark in I; unfold is_u32, UINT_MAX; lia|reflexivity].
Qed.

Lemma shown_sctp h P mask w s now done eth data f l4 v s' ev : flow_ok f -> l4_packet eth data (fl_proto f) (fl_src f) (fl_dst f) l4 -> ports_at data l4 (fl_sport f) (fl_dport f) ->
  is_mark v -> Z.land mask 64 = 0 -> Z.land mask 16 <> 0 -> fl_proto f = 132 ->
  runp (packet h now done eth data) s = Some (Verdict v, s', ev) ->
  exists l, handlerText h P mask w s now done eth data = Ok l /\ ((exists x, In x l /\ sent_line v x) \/ v = h_nolb h \/ v = h_notargets h).
Proof.
  intros FO P4 PA IM M0 M F R.
  assert (GK : getHashKey (S (length data)) 0 eth data = Ok (Some (0, mk_flow_key f, None))) by (apply plain_key; [exact FO|exists l4; auto|congruence]).
  destruct (handler_whole h P mask w s now done eth data 0 (mk_flow_key f) None v s' ev (or_intror eq_refl) ltac:(discriminate) GK R) as (R1 & ->).
  assert (TN : traceName mask w (mk_flow_key f) eth data = Ok None) by (unfold traceName, TRACE_FLOWS; rewrite M0; reflexivity).
  assert (KP : kproto (mk_flow_key f) = 132) by (rewrite (proj1 (key_fields f FO)); exact F).
  unfold classify in R1. destruct (lookup_inv _ _ _ _ _ _ _ _ _ _ _ (alike_refl s) R1) as (a & u & t & e & FL & AL & R2 & IE). clear R1 R.
  unfold classifyText. rewrite FL, TN. cbn [obind packetText]. rewrite KP in *. change (132 =? 17) with false in *. cbn [andb] in *. cbv iota in *.
  unfold forward in R2. unfold forwardText. destruct (a =? 0) eqn:A.
  { injection R2 as <- <- <-. eexists. split; [reflexivity|]. auto. }
  destruct (read_inv _ _ _ _ _ _ _ R2) as (g & fw & G & TM & R1). clear R2. apply Z.eqb_neq in A. destruct (release_inv _ _ _ _ _ _ _ A R1) as (s1 & e1 & (S1 & S2) & R2 & GV). clear R1.
  apply trace_inv in R2. unfold lbRegion in G. destruct (deref t a) as [o|] eqn:D; [|discriminate]. injection G as <-.
  destruct AL as ((MM & FF) & S & DD). destruct (DD a o D) as (o' & D1 & D2 & D3). rewrite D1. rewrite <- MM, D3, TM. cbn [obind].
  destruct (fw <? 0) eqn:N.
  { injection R2 as <- <- <-. eexists. split; [reflexivity|]. auto. }
  change (Z.land 0 1 =? 0) with true in *. cbv iota in *. injection R2 as <- <- <-. eexists. split; [reflexivity|]. left.
  destruct (sctp_used mask (lb_target o') (mk_flow_key f) (zlen data) fw M KP ltac:(lia) IM) as (x & X1 & X2). exists x. split; [apply in_or_app; right; apply in_or_app; right; exact X1|exact X2].
Qed.

(** With the trace of sctp only, TCP packets are not shown. *)
Lemma shown_not_sctp h P w s now done eth data f l4 l : flow_ok f -> l4_packet eth data (fl_proto f) (fl_src f) (fl_dst f) l4 -> ports_at data l4 (fl_sport f) (fl_dport f) ->
  fl_proto f = 6 -> handlerText h P 16 w s now done eth data = Ok l -> l = [].
Proof.
  intros FO P4 PA F.
  assert (GK : getHashKey (S (length data)) 0 eth data = Ok (Some (0, mk_flow_key f, None))) by (apply plain_key; [exact FO|exists l4; auto|congruence]).
  assert (KP : kproto (mk_flow_key f) = 6) by (rewrite (proj1 (key_fields f FO)); exact F).
  unfold handlerText. rewrite GK. change (Z.land 0 3 =? 0) with true. cbv iota zeta. unfold classifyText. destruct (flowLookup _ _ _ _ _ _) as [[a u]| | |]; try discriminate.
  change (traceName 16 w (mk_flow_key f) eth data) with (Ok (@None chars)). cbn [obind packetText]. rewrite KP. change (6 =? 17) with false. cbn [andb]. cbv iota.
  unfold forwardText. destruct (a =? 0); [cbn [obind]; intros H; injection H as <-; reflexivity|]. destruct (deref s a) as [o|]; [|discriminate]. destruct (tableMark _ _) as [fw| | |]; try discriminate. cbn [obind].
  destruct (fw <? 0); [cbn [obind]; intros H; injection H as <-; reflexivity|]. change (Z.land 0 1 =? 0) with true. cbv iota. cbn [obind]. intros H. injection H as <-.
  unfold usedText. rewrite KP. reflexivity.
Qed.

(** ** What is written to the tun device *)
Lemma release_tun l a k s r s' ev : a <> 0 -> runp (release l a k) s = Some (r, s', ev) -> exists s1 e', same s s1 /\ t_tun s1 = t_tun s /\ runp k s1 = Some (r, s', e').
Proof.
  intros A. unfold release. apply Z.eqb_neq in A. rewrite A. intros H. destruct (act_inv _ _ _ _ _ _ H) as (e & s1 & p & e' & E & R & ->).
  destruct (deref s a) as [o|]; [|discriminate]. destruct (s32 (lb_ref o - 1) <? 0); [discriminate|]. destruct (s32 (lb_ref o - 1) =? 0).
  - injection E as <- <- <-. destruct (act_inv _ _ _ _ _ _ R) as (e2 & s2 & p2 & e2' & E2 & R2 & ->). clear H R. destruct (deref _ a); [|discriminate]. destruct (unlink _ _ a) as [l'|]; [|discriminate].
    injection E2 as <- <- <-. destruct (act_inv _ _ _ _ _ _ R2) as (e3 & s3 & p3 & e3' & E3 & R3 & ->). destruct (deref _ a) as [o3|]; [|discriminate]. injection E3 as <- <- <-.
    eexists _, _. split; [|split; [|exact R3]]; [split; reflexivity|reflexivity].
  - injection E as <- <- <-. eexists _, _. split; [|split; [|exact R]]; [split; reflexivity|reflexivity].
Qed.
Lemma lookup_tun h k eth data u kont s t r s' ev : alike s t -> t_tun t = t_tun s -> runp (lookup h k eth data u kont) t = Some (r, s', ev) ->
  exists a u' t' e', flowLookup (h_ping h) (t_set s) k eth (Some data) u = Ok (a, u') /\ alike s t' /\ t_tun t' = t_tun s /\ runp (kont a u') t' = Some (r, s', e').
Proof.
  intros AL T H. destruct (act_inv _ _ _ _ _ _ H) as (e & s1 & p & e' & E & R & ->). rewrite (proj1 (proj2 AL)) in E.
  destruct (flowLookup _ _ _ _ _ _) as [[a u']| | |]; try discriminate. exists a, u'. destruct (a =? 0) eqn:A.
  - injection E as <- <- <-. exists t, e'. replace a with 0 by lia. repeat (split; auto).
  - destruct (lockRef t a) as [t'|] eqn:LK; [|discriminate]. injection E as <- <- <-. exists t', e'. split; [reflexivity|]. split; [eapply lock_alike; eauto|]. split; [|exact R].
    rewrite <- T. unfold lockRef in LK. destruct (deref t a); [|discriminate]. injection LK as <-. reflexivity.
Qed.

Definition other_lines (l : list chars) : Prop := forall x y, In x l -> x <> str "Frag injected" ++ y.
Lemma others_nil : other_lines [].
Proof. intros x y []. Qed.
Lemma others_app l l' : other_lines l -> other_lines l' -> other_lines (l ++ l').
Proof. intros A B x y I. apply in_app_or in I. destruct I; auto. Qed.
Lemma others_on mask m l : other_lines l -> other_lines (on mask m l).
Proof. intros A. unfold on. destruct (_ =? 0); [apply others_nil|exact A]. Qed.
Lemma others_one c s : c <> 70 -> other_lines [c :: s].
Proof. intros C x y [<-|[]] E. injection E as E. congruence. Qed.
Lemma others_two c s : c <> 114 -> other_lines [70 :: c :: s].
Proof. intros C x y [<-|[]] E. injection E as E. congruence. Qed.
Lemma others_used mask t k len fw : other_lines (usedText mask t k len fw).
Proof.
  unfold usedText. apply others_on. assert (L : forall a b, other_lines [85 :: a; 80 :: b]) by (intros a b x y [<-|[<-|[]]]; discriminate).
  destruct (_ =? 0); [destruct (kproto k =? 132); [apply L|apply others_nil]|apply L].
Qed.
Lemma told_app tun b a l l' : other_lines l -> injections_told tun b a l' -> injections_told tun b a (l ++ l').
Proof.
  destruct tun; cbn.
  - intros _ (ws & E & F). exists ws. split; [exact E|]. intros d I Z. destruct (F d I Z) as (n & N & J). exists n. split; [exact N|]. apply in_or_app. right. exact J.
  - intros O (E & F). split; [exact E|]. apply others_app; auto.
Qed.
Lemma told_app_l tun b a l l' : other_lines l' -> injections_told tun b a l -> injections_told tun b a (l ++ l').
Proof.
  destruct tun; cbn.
  - intros _ (ws & E & F). exists ws. split; [exact E|]. intros d I Z. destruct (F d I Z) as (n & N & J). exists n. split; [exact N|]. apply in_or_app. left. exact J.
  - intros O (E & F). split; [exact E|]. apply others_app; auto.
Qed.
Lemma told_none tun b l : other_lines l -> injections_told tun b b l.
Proof. destruct tun; cbn; [|auto]. intros _. exists []. split; [rewrite app_nil_r; reflexivity|]. intros d []. Qed.
Lemma told_handed tun mask b ds : Z.land mask 4 <> 0 -> injections_told tun b (b ++ (if tun then ds else [])) (flat_map (injectText mask tun) ds).
Proof.
  intros M. destruct tun; cbn.
  - exists ds. split; [reflexivity|]. intros d I Z. exists (dec (zlen d)). split; [apply dec_ok; unfold is_u32, UINT_MAX, zlen in *; lia|].
    apply in_flat_map. exists d. split; [exact I|]. unfold injectText. rewrite on_in by exact M. left. reflexivity.
  - rewrite app_nil_r. split; [reflexivity|]. intros x y I E. apply in_flat_map in I. destruct I as (d & _ & I). unfold injectText in I. rewrite on_in in I by exact M. destruct I as [<-|[]]. discriminate.
Qed.

Lemma forward_told h mask s t now done len rc k fi a v s' ev : alike s t -> t_tun t = t_tun s -> runp (forward h now done rc k fi a) t = Some (Verdict v, s', ev) -> Z.land mask 4 <> 0 ->
  exists l, forwardText h mask None s now done len rc k fi a = Ok l /\ injections_told (h_tun h) (t_tun s) (t_tun s') l.
Proof.
  intros AL T R M4. unfold forward in R. unfold forwardText. destruct (a =? 0) eqn:A.
  { injection R as <- <- <-. eexists. split; [reflexivity|]. rewrite T. apply told_none, others_app; [apply others_on, others_two; discriminate|apply others_nil]. }
  destruct (read_inv _ _ _ _ _ _ _ R) as (g & fw & G & TM & R1). clear R. apply Z.eqb_neq in A. destruct (release_tun _ _ _ _ _ _ _ A R1) as (s1 & e1 & (S1 & S2) & T1 & R2). clear R1.
  apply trace_inv in R2. unfold lbRegion in G. destruct (deref t a) as [o|] eqn:D; [|discriminate]. injection G as <-.
  destruct AL as ((M & F) & S & DD). destruct (DD a o D) as (o' & D1 & D2 & D3). rewrite D1. rewrite <- M, D3, TM. cbn [obind].
  destruct (fw <? 0).
  { injection R2 as <- <- <-. eexists. split; [reflexivity|]. rewrite T1, T. apply told_none, others_nil. }
  destruct (Z.land rc 1 =? 0).
  { injection R2 as <- <- <-. eexists. split; [reflexivity|]. rewrite T1, T. apply told_none, others_app; [apply others_nil|apply others_used]. }
  unfold firstFragment in R2. unfold firstText. destruct fi as [id|]; [|discriminate]. destruct (act_inv _ _ _ _ _ _ R2) as (e & s2 & p & e' & E & R & _). rewrite S2, F in E.
  destruct (Frag_Model.call_op _ _ _ _) as [[ft ob]| | |]; try discriminate. destruct (retOf ob) as [[rc2 ov]|]; [|discriminate]. injection E as <- <- <-. injection R as _ <- _. cbn [obind fst snd told].
  eexists. split; [reflexivity|]. unfold set_ft. cbn [t_tun]. rewrite T1, T. cbn [app].
  apply told_app_l; [destruct (rc2 =? 0); [apply others_used|apply others_nil]|].
  apply told_app; [apply others_on; intros x y [<-|[]]; discriminate|]. apply told_app_l; [|apply told_handed; exact M4].
  destruct (rc2 =? 0); [apply others_nil|]. rewrite app_nil_r. apply others_on, others_two. discriminate.
Qed.
Lemma classify_told h P mask w s now done eth data rc k fi v s' ev : runp (classify h now done eth data rc k fi) s = Some (Verdict v, s', ev) -> Z.land mask 64 = 0 -> Z.land mask 4 <> 0 ->
  exists l, classifyText h P mask w s now done eth data rc k fi = Ok l /\ injections_told (h_tun h) (t_tun s) (t_tun s') l.
Proof.
  intros R M0 M4. unfold classify in R. destruct (lookup_tun _ _ _ _ _ _ _ _ _ _ _ (alike_refl s) eq_refl R) as (a & u & t & e & FL & AL & T & R1). clear R.
  unfold classifyText. rewrite FL. assert (TN : traceName mask w k eth data = Ok None) by (unfold traceName, TRACE_FLOWS; rewrite M0; reflexivity). rewrite TN. cbn [obind packetText].
  destruct ((kproto k =? 17) && (kdport k =? u))%bool.
  - assert (U : forall m, other_lines (on mask m [ln (str "Udp encapsulated sctp packet on port " ++ dec u)])) by (intros m; apply others_on, others_one; discriminate).
    destruct (getHashKey (S (length data)) u eth data) as [[[[rc' k'] fi']|]| | |]; try discriminate.
    + destruct (lookup_tun _ _ _ _ _ _ _ _ _ _ _ AL T R1) as (a2 & u2 & t2 & e2 & FL2 & AL2 & T2 & R2). rewrite FL2.
      destruct (forward_told h mask s t2 now done (zlen data) rc' k' _ a2 v s' e2 AL2 T2 R2 M4) as (l4 & -> & Q). cbn [obind app]. eexists. split; [reflexivity|].
      apply told_app; [apply U|]. apply told_app; [|exact Q]. destruct (a2 =? 0); [apply others_on, others_two; discriminate|apply others_nil].
    + injection R1 as <- <- <-. eexists. split; [reflexivity|]. rewrite T. cbn [app]. apply told_none, others_app; [apply U|apply others_on, others_two; discriminate].
  - destruct (forward_told h mask s t now done (zlen data) rc k fi a v s' e AL T R1 M4) as (l4 & -> & Q). cbn [obind app]. eauto.
Qed.
Lemma shown_injected h P mask w s now done eth data v s' ev : h_tier h = None -> Z.land mask 64 = 0 -> Z.land mask 4 <> 0 ->
  runp (packet h now done eth data) s = Some (Verdict v, s', ev) ->
  exists l, handlerText h P mask w s now done eth data = Ok l /\ injections_told (h_tun h) (t_tun s) (t_tun s') l.
Proof.
  intros HT M0 M4 R. unfold packet, tier in R. unfold handlerText. rewrite HT in *. destruct (getHashKey _ _ _ _) as [[[[rc k] fi]|]| | |]; try discriminate.
  - destruct (Z.land rc 3 =? 0); [eapply classify_told; eauto|]. destruct (Z.land rc 1 =? 0); [|eapply classify_told; eauto].
    destruct (act_inv _ _ _ _ _ _ R) as (e & s1 & p & e' & E & Q & _). unfold otherText. destruct (Frag_Model.call_op _ _ _ _) as [[ft ob]| | |]; try discriminate.
    destruct (retOf ob) as [[[|z|z] [x|]]|]; try discriminate; injection E as _ <- <-; injection Q as _ <- _; (eexists; split; [reflexivity|]); unfold set_ft; cbn [t_tun]; rewrite app_nil_r; apply told_none, others_on;
      intros q y [<-|[]]; discriminate.
  - injection R as _ <- _. eexists. split; [reflexivity|]. apply told_none, others_nil.
Qed.
