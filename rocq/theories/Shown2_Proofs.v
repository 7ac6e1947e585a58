(** The trace of a packet (C88): the handler, reading the lines, protocol names. *)
From Coq Require Import String.
From Verif Require Import Base Lists Cstr_Model IpKey_Model IpKey_Spec IpKey_Proofs Maglev_Model Rangeset_Model Rangeset_Spec Rangeset2_Proofs Match_Spec Match_Proofs Flow_Model Flow_Proofs Flow2_Proofs
  FlowLb_Model FlowLb4_Proofs FlowLb5_Proofs Fwmark_Spec Print_Model Print_Spec Trace_Model Trace3_Proofs Shm5_Proofs Shown_Model Shown_Spec Shown_Proofs.
From Verif Require Frags_Spec Shm_Model Frag_Model Frag_Spec Frag3_Proofs Steer2_Proofs FlowLb_Proofs Frags2_Proofs.

Lemma lookup_key L P w id eth data w1 : tstep L P w (TLookup id eth data) = Some (TCont w1 Found) -> exists rc k fi, getHashKey (S (length data)) 0 eth data = Ok (Some (rc, k, fi)).
Proof.
  cbn [tstep]. destruct (existsb _ _); [discriminate|]. unfold traceLookup. destruct (getHashKey _ _ _ _) as [[[[rc k] fi]|]| | |]; try discriminate. eauto.
Qed.
Lemma handler_whole h P mask w s now done eth data rc k fi v s' ev : h_tier h = None \/ Z.land rc 3 = 0 -> Z.land rc 3 <> 2 -> getHashKey (S (length data)) 0 eth data = Ok (Some (rc, k, fi)) ->
  runp (packet h now done eth data) s = Some (Verdict v, s', ev) ->
  runp (classify h now done eth data rc k fi) s = Some (Verdict v, s', ev) /\ handlerText h P mask w s now done eth data = classifyText h P mask w s now done eth data rc k fi.
Proof.
  intros HT R2 GK R. unfold packet, tier in R. unfold handlerText. rewrite GK in *. destruct (Z.land rc 3 =? 0) eqn:R0; [auto|]. destruct HT as [HT|HT]; [|lia]. rewrite HT in *.
  assert (B1 : Z.land rc 1 =? 0 = false); [|rewrite B1 in *; auto].
  apply Z.eqb_neq. intros B. apply Z.eqb_neq in R0. assert (E : Z.land rc 3 = Z.land rc 2).
  { change 3 with (Z.lor 1 2). rewrite Z.land_lor_distr_r, B. reflexivity. }
  assert (Z.land rc 3 = Z.land (Z.land rc 3) 3) by (rewrite <- Z.land_assoc; reflexivity).
  assert (A : 0 <= Z.land rc 3 < 4). { change 3 with (Z.ones 2). rewrite Z.land_ones by lia. apply Z.mod_pos_bound. reflexivity. }
  assert (Z.land (Z.land rc 3) 1 = 0) by (rewrite <- Z.land_assoc; exact B).
  assert (Q : Z.land rc 3 = 1 \/ Z.land rc 3 = 3) by lia. destruct Q as [Q|Q]; rewrite Q in H0; discriminate.
Qed.
Lemma shown_mark h L P mask w w1 w2 id n c s now done eth data v s' ev : h_tier h = None -> is_mark v -> Z.land mask 64 <> 0 ->
  tstep L P w (TLookup id eth data) = Some (TCont w1 Found) -> tstep L P w1 (TWrite id) = Some (TCont w2 (Wrote n c)) ->
  runp (packet h now done eth data) s = Some (Verdict v, s', ev) ->
  exists l, handlerText h P mask w s now done eth data = Ok l /\
   (mark_told s ev l v \/ v = -1 /\ (In failed l \/ exists u, u <> 0 /\ getHashKey (S (length data)) u eth data = Ok None)).
Proof.
  intros HT IM M H1 H2 R. destruct (lookup_key _ _ _ _ _ _ _ H1) as (rc & k & fi & GK). destruct (trace_shown L P mask w id eth data w1 w2 n c rc k fi M H1 H2 GK) as (TN & IC & R3).
  destruct (handler_whole h P mask w s now done eth data rc k fi v s' ev (or_introl HT) R3 GK R) as (R1 & ->).
  destruct (classify_text h P mask w s now done eth data rc k fi (Some n) v s' ev R1 IM GK TN) as (l & -> & T & _); [eauto|]. exists l. split; [reflexivity|].
  destruct (T n c eq_refl IC) as (r & -> & Q).
  assert (IN : forall x, In x r -> In x ([matchLine n] ++ match c with [] => [] | _ => [c] end ++ [packetLine P (protoText (kproto k)) (zlen data) k] ++ r)) by (intros x X; do 3 (apply in_or_app; right); exact X).
  destruct Q as [(x & t & X & Y)|[(_ & V & F)|(_ & V & [F|U])]].
  - left. exists x, t. auto.
  - right. auto.
  - right. auto.
  - right. auto.
Qed.
Lemma known_text p : p = 6 \/ p = 17 \/ p = 132 -> called p (protoText p).
Proof. unfold called, known. intros [-> |[-> | ->]]; left; cbn; auto 8. Qed.
Lemma port_range p : bytes 2 p -> is_u32 (port_num p).
Proof.
  intros (L & B). destruct p as [|a [|b [|]]]; try discriminate. apply Forall_forall with (x := a) in B as A'; [|left; reflexivity]. apply Forall_forall with (x := b) in B as B'; [|right; left; reflexivity].
  unfold is_u32, UINT_MAX, port_num. cbn [nth]. lia.
Qed.
Lemma flow_line P f (data : list Z) : flow_ok f -> zlen data <= UINT_MAX ->
  packet_line (ntop P) (fl_proto f) (zlen data) (fl_src f) (fl_dst f) (port_num (fl_sport f)) (port_num (fl_dport f)) (packetLine P (protoText (kproto (mk_flow_key f))) (zlen data) (mk_flow_key f)).
Proof.
  intros FO ZL. destruct (key_fields f FO) as (-> & K2 & K3). pose proof FO as (_ & _ & PP & SP & DP). exists (protoText (fl_proto f)), (dec (zlen data)), (dec (port_num (fl_sport f))), (dec (port_num (fl_dport f))).
  split; [apply known_text; exact PP|]. split; [apply dec_ok; unfold is_u32, zlen in *; lia|]. split; [apply dec_ok, port_range, SP|]. split; [apply dec_ok, port_range, DP|].
  unfold packetLine. rewrite K2, K3. reflexivity.
Qed.
Lemma shown_flow h L P mask w w1 w2 id n c s now done eth data f l4 v s' ev : flow_ok f -> l4_packet eth data (fl_proto f) (fl_src f) (fl_dst f) l4 -> ports_at data l4 (fl_sport f) (fl_dport f) ->
  zlen data <= UINT_MAX -> is_mark v -> Z.land mask 64 <> 0 ->
  tstep L P w (TLookup id eth data) = Some (TCont w1 Found) -> tstep L P w1 (TWrite id) = Some (TCont w2 (Wrote n c)) ->
  runp (packet h now done eth data) s = Some (Verdict v, s', ev) ->
  exists pl r, handlerText h P mask w s now done eth data = Ok (([10] ++ line (str "Match for trace-flow: " ++ n)) :: pl :: r) /\
    packet_line (ntop P) (fl_proto f) (zlen data) (fl_src f) (fl_dst f) (port_num (fl_sport f)) (port_num (fl_dport f)) pl /\
    (mark_told s ev r v \/ fl_proto f = 17 /\ v = -1 /\ (In failed r \/ exists u, u <> 0 /\ getHashKey (S (length data)) u eth data = Ok None)).
Proof.
  intros FO P4 PA ZL IM M H1 H2 R.
  assert (GK : getHashKey (S (length data)) 0 eth data = Ok (Some (0, mk_flow_key f, None))) by (apply plain_key; [exact FO|exists l4; auto|congruence]).
  destruct (trace_shown L P mask w id eth data w1 w2 n c _ _ _ M H1 H2 GK) as (TN & IC & R3).
  destruct (handler_whole h P mask w s now done eth data 0 (mk_flow_key f) None v s' ev (or_intror eq_refl) R3 GK R) as (R1 & ->).
  destruct (classify_text h P mask w s now done eth data _ _ _ (Some n) v s' ev R1 IM GK TN) as (l & -> & T & _); [eauto|].
  destruct (T n c eq_refl IC) as (r & -> & Q). rewrite (l4_line eth data (fl_proto f) (fl_src f) (fl_dst f) l4) in IC; auto.
  - injection IC as <-. eexists _, r. split; [reflexivity|]. split; [apply flow_line; auto|]. rewrite (proj1 (key_fields f FO)) in Q. destruct Q as [Q|[(Q & _)|Q]]; auto. exfalso. apply Q. reflexivity.
  - destruct FO as (_ & _ & [-> |[-> | ->]] & _); reflexivity.
  - destruct PA as (_ & _ & _ & _ & PA). lia.
Qed.
Lemma shown_packet h P mask w s now done eth data f l4 v s' ev : flow_ok f -> l4_packet eth data (fl_proto f) (fl_src f) (fl_dst f) l4 -> ports_at data l4 (fl_sport f) (fl_dport f) ->
  is_mark v -> Z.land mask 64 = 0 -> Z.land mask 2 <> 0 ->
  runp (packet h now done eth data) s = Some (Verdict v, s', ev) ->
  exists l, handlerText h P mask w s now done eth data = Ok l /\
    ((exists x, In x l /\ sent_line v x) \/ v = h_nolb h /\ In (line (str "Failed flowLookup")) l \/ v = h_notargets h \/ fl_proto f = 17 /\ v = -1).
Proof.
  intros FO P4 PA IM M0 M R.
  assert (GK : getHashKey (S (length data)) 0 eth data = Ok (Some (0, mk_flow_key f, None))) by (apply plain_key; [exact FO|exists l4; auto|congruence]).
  destruct (handler_whole h P mask w s now done eth data 0 (mk_flow_key f) None v s' ev (or_intror eq_refl) ltac:(discriminate) GK R) as (R1 & ->).
  assert (TN : traceName mask w (mk_flow_key f) eth data = Ok None) by (unfold traceName, TRACE_FLOWS; rewrite M0; reflexivity).
  destruct (classify_text h P mask w s now done eth data _ _ _ None v s' ev R1 IM GK TN) as (l & -> & _ & T & _); [congruence|]. exists l. split; [reflexivity|].
  rewrite (proj1 (key_fields f FO)) in T. unfold unnamed_mark in T. destruct (T M) as [[Q|[Q|Q]]|[(Q & _)|Q]]; auto. exfalso. apply Q. reflexivity.
Qed.
Lemma shown_fragment h P mask w s now done eth data a b id v s' ev : part eth data false a b id -> is_mark v -> Z.land mask 4 <> 0 ->
  runp (packet h now done eth data) s = Some (Verdict v, s', ev) ->
  exists x, handlerText h P mask w s now done eth data = Ok [x] /\ tells_fragment x v.
Proof.
  intros PT IM M R. destruct (Frags2_Proofs.other_key 0 eth data a b id PT) as (rc & k & fi & GK & R3 & R1 & _). unfold packet, tier in R. unfold handlerText. rewrite GK in *.
  apply Z.eqb_neq in R3. rewrite R3 in *. rewrite R1 in *. change (0 =? 0) with true in *. cbv iota in *.
  assert (OT : runp (otherFragment h now done k data) s = Some (Verdict v, s', ev) -> exists x, otherText h mask s now done k data = Ok [x] /\ tells_fragment x v).
  { clear R. intros R. destruct (act_inv _ _ _ _ _ _ R) as (e & s1 & p & e' & E & Q & _). unfold otherText. destruct (Frag_Model.call_op _ _ _ _) as [[ft ob]| | |]; try discriminate.
    destruct (retOf ob) as [[[|z|z] [x|]]|]; try discriminate; injection E as _ <- <-; injection Q as <- _ _; rewrite on_in by exact M; (eexists; split; [reflexivity|]); try (apply f_local, shows_ok, IM);
      first [apply f_stored|apply f_dropped]. }
  destruct (h_tier h) as [[g own]|]; [|auto]. destruct (read_inv _ _ _ _ _ _ _ R) as (g' & fw & G & TM & Q). injection G as <-. rewrite TM. cbn [obind].
  destruct ((0 <=? fw) && negb (fw =? own))%bool; [|auto]. injection Q as <- _ _. rewrite on_in by exact M. eexists. split; [reflexivity|]. apply f_tier, shows_ok, IM.
Qed.
Lemma shown_nothing h P w s now done eth data l : handlerText h P 0 w s now done eth data = Ok l -> l = [].
Proof.
  unfold handlerText. destruct (getHashKey _ _ _ _) as [[[[rc k] fi]|]| | |]; try discriminate; [|intros H; injection H as <-; reflexivity].
  assert (IJ : forall d, flat_map (injectText 0 (h_tun h)) d = []) by (induction d as [|x d IH]; [reflexivity|exact IH]).
  assert (FW : forall len rc k fi a l, forwardText h 0 None s now done len rc k fi a = Ok l -> l = []).
  { clear - IJ. intros len rc k fi a l. unfold forwardText. destruct (a =? 0); [intros H; injection H as <-; reflexivity|]. destruct (deref s a) as [o|]; [|discriminate]. destruct (tableMark _ _) as [fw| | |]; try discriminate. cbn [obind].
    destruct (fw <? 0); [intros H; injection H as <-; reflexivity|]. destruct (Z.land rc 1 =? 0); [intros H; injection H as <-; reflexivity|]. unfold firstText. destruct fi as [id|]; [|discriminate].
    destruct (Frag_Model.call_op _ _ _ _) as [[ft ob]| | |]; try discriminate. destruct (retOf ob) as [[z x]|]; [|discriminate]. cbn [obind fst snd]. intros H. injection H as <-. rewrite IJ. destruct (z =? 0); reflexivity. }
  assert (CL : forall l, classifyText h P 0 w s now done eth data rc k fi = Ok l -> l = []).
  { clear - FW. intros l. unfold classifyText. destruct (flowLookup _ _ _ _ _ _) as [[a u]| | |]; try discriminate. change (traceName 0 w k eth data) with (Ok (@None chars)). cbn [obind packetText].
    destruct (_ && _)%bool.
    - destruct (getHashKey _ _ _ _) as [[[[rc' k'] fi']|]| | |]; try discriminate; [|intros H; injection H as <-; reflexivity]. destruct (flowLookup _ _ _ _ _ _) as [[a' u']| | |]; try discriminate.
      destruct (forwardText _ _ _ _ _ _ _ _ _ _ _) as [l4| | |] eqn:F; try discriminate. cbn [obind]. intros H. injection H as <-. rewrite (FW _ _ _ _ _ _ F). destruct (a' =? 0); reflexivity.
    - destruct (forwardText _ _ _ _ _ _ _ _ _ _ _) as [l4| | |] eqn:F; try discriminate. cbn [obind]. intros H. injection H as <-. rewrite (FW _ _ _ _ _ _ F). reflexivity. }
  assert (OT : forall l, otherText h 0 s now done k data = Ok l -> l = []).
  { intros l0. unfold otherText. destruct (Frag_Model.call_op _ _ _ _) as [[ft ob]| | |]; try discriminate. destruct (retOf ob) as [[[|z|z] [x|]]|]; try discriminate; intros H; injection H as <-; reflexivity. }
  destruct (Z.land rc 3 =? 0); [apply CL|]. assert (LO : forall l, (if Z.land rc 1 =? 0 then otherText h 0 s now done k data else classifyText h P 0 w s now done eth data rc k fi) = Ok l -> l = []) by (destruct (Z.land rc 1 =? 0); assumption).
  destruct (h_tier h) as [[g own]|]; [|apply LO]. destruct (tableMark _ _) as [fw| | |]; try discriminate. cbn [obind]. destruct (_ && _)%bool; [|apply LO]. intros H. injection H as <-. reflexivity.
Qed.

(** ** The line of a packet can be read back *)
Lemma known_fun p s p' : known p s -> known p' s -> p = p'.
Proof. unfold known. intros A B. repeat (destruct A as [(-> & ->)|A]); try (destruct A as (-> & ->)); repeat (destruct B as [(-> & B)|B]); try (destruct B as (-> & B)); try discriminate; reflexivity. Qed.
Lemma known_letters p s : known p s -> s <> [] /\ Forall (fun c => c <> 44) s /\ ~ 48 <= hd 0 s <= 57.
Proof. unfold known. intros A. repeat (destruct A as [(-> & ->)|A]); try (destruct A as (-> & ->)); (split; [discriminate|]; split; [repeat constructor; discriminate|cbn; lia]). Qed.
Lemma called_fun p s p' : called p s -> called p' s -> p = p'.
Proof.
  assert (ND : forall p s v, known p s -> is_dec s v -> False).
  { intros q s1 v1 K (N & F & _). destruct (known_letters q s1 K) as (_ & _ & H). destruct s1 as [|c s1]; [congruence|]. apply H. exact (Forall_inv F). }
  intros [K|(N & D)] [K'|(N' & D')].
  - eapply known_fun; eauto.
  - exfalso. eauto.
  - exfalso. eauto.
  - destruct D as (_ & _ & D & _), D' as (_ & _ & D' & _). congruence.
Qed.
Lemma called_plain p s : called p s -> Forall (fun c => c <> 44) s.
Proof. intros [K|(_ & _ & F & _)]; [apply (known_letters _ _ K)|]. revert F. apply Forall_impl. intros c C. lia. Qed.
Lemma dec_plain s v x : is_dec s v -> ~ 48 <= x <= 57 -> Forall (fun c => c <> x) s.
Proof. intros (_ & F & _) N. revert F. apply Forall_impl. intros c C ->. auto. Qed.
Lemma dec_fun s v v' : is_dec s v -> is_dec s v' -> v = v'.
Proof. intros (_ & _ & A & _) (_ & _ & B & _). congruence. Qed.
Lemma not_in x (l : chars) : ~ In x l -> Forall (fun c => c <> x) l.
Proof. intros H. apply Forall_forall. intros c C ->. auto. Qed.
Lemma line_read N p len src dst sp dp p' len' src' dst' sp' dp' l :
  (forall a, bytes 16 a -> ~ In 32 (N a)) -> (forall a b, bytes 16 a -> bytes 16 b -> N a = N b -> a = b) -> bytes 16 src -> bytes 16 dst -> bytes 16 src' -> bytes 16 dst' ->
  packet_line N p len src dst sp dp l -> packet_line N p' len' src' dst' sp' dp' l -> (p, len, src, dst, sp, dp) = (p', len', src', dst', sp', dp').
Proof.
  intros NS NI B1 B2 B3 B4 (tp & tl & a & b & C & D1 & D2 & D3 & ->) (tp' & tl' & a' & b' & C' & D1' & D2' & D3' & E).
  unfold line in E. apply app_inj_tail in E. destruct E as (E & _). apply app_inv_head in E.
  apply (span (fun c => c <> 44)) in E; [|eapply called_plain; eauto|eapply called_plain; eauto|intros H; apply H; reflexivity|intros H; apply H; reflexivity]. destruct E as (-> & E).
  apply app_inv_head in E. apply (span (fun c => c <> 44)) in E; [|eapply dec_plain; eauto; lia|eapply dec_plain; eauto; lia|intros H; apply H; reflexivity|intros H; apply H; reflexivity]. destruct E as (-> & E).
  apply app_inv_head in E. apply (span (fun c => c <> 32)) in E; [|apply not_in, NS; auto|apply not_in, NS; auto|intros H; apply H; reflexivity|intros H; apply H; reflexivity]. destruct E as (E1 & E).
  apply app_inv_head in E. apply (span (fun c => c <> 32)) in E; [|eapply dec_plain; eauto; lia|eapply dec_plain; eauto; lia|intros H; apply H; reflexivity|intros H; apply H; reflexivity]. destruct E as (-> & E).
  apply app_inv_head in E. apply (span (fun c => c <> 32)) in E; [|apply not_in, NS; auto|apply not_in, NS; auto|intros H; apply H; reflexivity|intros H; apply H; reflexivity]. destruct E as (E2 & E).
  apply app_inv_head in E. subst b'. rewrite (called_fun _ _ _ C C'), (dec_fun _ _ _ D1 D1'), (dec_fun _ _ _ D2 D2'), (dec_fun _ _ _ D3 D3'), (NI _ _ B1 B3 E1), (NI _ _ B2 B4 E2). reflexivity.
Qed.

(** ** Names of protocols *)
Lemma name_known p s : protoName p = Some s -> known p s.
Proof.
  unfold protoName, known. repeat match goal with |- (if ?x =? ?y then _ else _) = _ -> _ => destruct (Z.eqb_spec x y) as [->|]; [intros H; injection H as <-; auto 10|] end. discriminate.
Qed.
Lemma name_unknown p : protoName p = None -> forall s, ~ known p s.
Proof.
  unfold protoName, known. repeat match goal with |- (if ?x =? ?y then _ else _) = _ -> _ => destruct (Z.eqb_spec x y) as [|]; [discriminate|] end. intros _ s H. intuition congruence.
Qed.
Definition ptr_ok (tr : list (pmove * option chars)) (s : pstate) : Prop :=
  forall t x, p_ptr s t = Some x -> exists p later, asked_name tr t p later /\
    match x with Const c => known p c | Buffer => protoName p = None /\ ((forall t' p' o, In (PName t' p', o) later -> exists s, known p' s) -> p_buf s = dec p) end.
Lemma ptr_inv tr s : pexec tr s -> ptr_ok tr s.
Proof.
  induction 1 as [|tr s m o s' X IH E]; [intros t x H; discriminate|].
  assert (KEEP : forall t p later, (forall q, m <> PTrace q \/ q <> t) -> asked_name tr t p later -> asked_name (tr ++ [(m, o)]) t p (later ++ [(m, o)])).
  { intros t p later NT ((b & ->) & NL). split; [exists b; rewrite <- app_assoc; reflexivity|]. intros (oo & I). apply in_app_or in I. destruct I as [I|[I|[]]]; [apply NL; eauto|]. injection I as -> _. destruct (NT t); congruence. }
  intros t x H. destruct m as [t0 p0|t0]; cbn [pstep] in E.
  - destruct (p_ptr s t0) eqn:P0; [discriminate|]. destruct (protoName p0) as [c0|] eqn:PN; injection E as <- <-; cbn [p_ptr p_buf] in H; unfold pset in H; destruct (Nat.eqb_spec t t0) as [->|NE].
    + injection H as <-. exists p0, []. split; [split; [exists tr; reflexivity|intros (oo & [])]|]. apply name_known, PN.
    + destruct (IH t x H) as (p & later & A & B). exists p, (later ++ [(PName t0 p0, None)]). split; [apply KEEP; [left; discriminate|exact A]|]. destruct x as [c|]; [exact B|]. destruct B as (B1 & B2). split; [exact B1|].
      intros K. apply B2. intros t' p' oo I. apply (K t' p' oo). apply in_or_app. left. exact I.
    + injection H as <-. exists p0, []. split; [split; [exists tr; reflexivity|intros (oo & [])]|]. split; [exact PN|reflexivity].
    + destruct (IH t x H) as (p & later & A & B). exists p, (later ++ [(PName t0 p0, None)]). split; [apply KEEP; [left; discriminate|exact A]|]. destruct x as [c|]; [exact B|]. destruct B as (B1 & B2). split; [exact B1|].
      intros K. exfalso. destruct (K t0 p0 None) as (s1 & K1); [apply in_or_app; right; left; reflexivity|]. exact (name_unknown _ PN _ K1).
  - destruct (p_ptr s t0) as [y|] eqn:P0; [|discriminate]. assert (Q : p_ptr s' = pset (p_ptr s) t0 None /\ p_buf s' = p_buf s) by (destruct y; injection E as <- _; auto). destruct Q as (Q1 & Q2).
    rewrite Q1 in H. unfold pset in H. destruct (Nat.eqb_spec t t0) as [|NE]; [discriminate|]. destruct (IH t x H) as (p & later & A & B). exists p, (later ++ [(PTrace t0, o)]). split; [apply KEEP; [intros q; destruct (Nat.eq_dec q t); [left; congruence|right; assumption]|exact A]|].
    destruct x as [c|]; [exact B|]. destruct B as (B1 & B2). split; [exact B1|]. rewrite Q2. intros K. apply B2. intros t' p' oo I. apply (K t' p' oo). apply in_or_app. left. exact I.
Qed.
Lemma names_shown tr s t s' x : pexec tr s -> (forall t p o, In (PName t p, o) tr -> 0 <= p < 256) -> pstep s (PTrace t) = Some (s', Some x) ->
  exists p later, asked_name tr t p later /\ (known p x \/ (forall s, ~ known p s) /\ ((forall t' p' o, In (PName t' p', o) later -> exists s, known p' s) -> is_dec x p)).
Proof.
  intros X R E. pose proof (ptr_inv tr s X) as I. cbn [pstep] in E. destruct (p_ptr s t) as [y|] eqn:P0; [|discriminate]. destruct (I t y P0) as (p & later & A & B). exists p, later. split; [exact A|].
  destruct y as [c|]; injection E as _ <-; [left; exact B|]. right. destruct B as (B1 & B2). split; [apply name_unknown, B1|]. intros K. rewrite (B2 K). apply dec_ok. destruct A as ((b & ->) & _).
  assert (0 <= p < 256) by (apply (R t p None); apply in_or_app; right; left; reflexivity). unfold is_u32, UINT_MAX. lia.
Qed.

(** ** Stored or dropped *)
Lemma sessions_sys g : forall l s m ans s1 m1, Frag_Spec.sessions g s m l ans s1 m1 -> forall m' ans' s1' m1', Frag_Spec.sessions g s m' l ans' s1' m1' -> s1 = s1'.
Proof.
  induction l as [|[c d] l IH]; intros s m ans s1 m1 H m' ans' s1' m1' H'.
  - inversion H; inversion H'; subst. reflexivity.
  - destruct (Frag3_Proofs.sessions_inv _ _ _ _ _ _ _ _ _ H) as (ob & t & an & mm & an2 & _ & C & _ & _ & _ & S). destruct (Frag3_Proofs.sessions_inv _ _ _ _ _ _ _ _ _ H') as (ob' & t' & an' & mm' & an2' & _ & C' & _ & _ & _ & S').
    rewrite C in C'. injection C' as <- <-. eapply IH; eauto.
Qed.
Lemma shown_stored h P mask w s now done eth data a b id l ans m : part eth data false a b id -> Z.land mask 4 <> 0 -> h_tier h = None ->
  Frag_Spec.conf_seq (h_frag h) -> Frag_Spec.calls_clock 0 (l ++ [(Frag_Model.CStore now (Frags_Spec.datagram a b id) data, done)]) ->
  Frag_Spec.sessions (h_frag h) (Frag_Model.fragTableCreate (h_frag h)) Frag_Spec.sempty l ans (t_ft s) m ->
  exists ans' m1 an m2, Frag_Spec.sessions (h_frag h) (Frag_Model.fragTableCreate (h_frag h)) Frag_Spec.sempty l ans' (t_ft s) m1 /\
    Frag_Spec.other_step (Frag_Spec.no_bucket (h_frag h) (t_ft s)) (Frag_Spec.no_frag (h_frag h) (t_ft s)) (Frag_Model.g_ttl (h_frag h)) (Frag_Model.g_mtu (h_frag h)) m1 now (Frags_Spec.datagram a b id) data done an m2 /\
    exists x, handlerText h P mask w s now done eth data = Ok [x] /\
      (x = line (str "Fragment stored") <-> exists before, Frag_Spec.storing (Frag_Model.g_ttl (h_frag h)) m1 now (Frags_Spec.datagram a b id) before /\ m2 = Frag_Spec.sput m1 (Frags_Spec.datagram a b id) (Frag_Spec.mkSess (Frag_Spec.SStoring (data :: before)) now) /\ Frag_Spec.an_rc an = 1) /\
      (x = line (str "Fragment dropped") <-> an = Frag_Spec.refused).
Proof.
  intros PT M HT CS CK S. destruct (Frag3_Proofs.sessions_ok _ _ CS CK) as (ans2 & s2 & m3 & S2). destruct (Frag3_Proofs.sessions_app _ _ _ _ _ _ _ _ S2) as (a1 & a2 & s1 & m1 & -> & _ & S3 & S4).
  assert (s1 = t_ft s) as -> by (eapply sessions_sys; eauto). destruct (Frag3_Proofs.sessions_inv _ _ _ _ _ _ _ _ _ S4) as (ob & t & an & m2 & an2 & _ & C & R & _ & SP & _). cbn [Frag_Spec.call_spec] in SP.
  exists a1, m1, an, m2. split; [exact S3|]. split; [exact SP|]. destruct (Frags2_Proofs.other_key 0 eth data a b id PT) as (rc & k & fi & GK & R3 & R1 & KB & _).
  unfold handlerText, otherText. rewrite GK. apply Z.eqb_neq in R3. rewrite R3, HT, R1. change (0 =? 0) with true. cbv iota. rewrite KB, C. apply Steer2_Proofs.ret_rc in R. rewrite R.
  inversion SP; subst; cbn [Frag_Spec.an_rc Frag_Spec.an_val Frag_Spec.refused]; rewrite on_in by exact M; (eexists; split; [reflexivity|]); (split; [split; [intros X; try discriminate X|intros (bf & B1 & B2 & B3); try discriminate B3; try reflexivity]|split; [intros X; try discriminate X; try reflexivity|intros X; try discriminate X; try reflexivity]]).
  exists l0. auto.
Qed.
