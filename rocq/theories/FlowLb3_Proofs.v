(** References held by packets, and whole executions (C43). *)
From Coq Require Import String Permutation.
From Verif Require Import Base Lists Cstr_Model IpKey_Model Maglev_Model Flow_Model Flow_Spec Flow_Proofs Flow2_Proofs
  Remote_Model FlowLb_Model FlowLb_Spec FlowLb_Proofs Requests_Spec FlowLb2_Proofs.
From Verif Require Frag_Model Conntrack2_Proofs.

Section Survive.
Variables (Q : Prop) (lo : Z).
Lemma not_flow : false = true -> ~ Q. Proof. discriminate. Qed.
Local Hint Resolve not_flow : core.

(** ** Packets *)
Lemma wf_next set l own k s' ev own' rest : wf Q lo false set own' k -> (length own' <= 1)%nat -> inv s' (own' ++ rest) -> l = t_set s' ->
  (forall a, countb (isHold a) own' = countb (isHold a) own + count (took a) ev - count (gave a) ev) ->
  exists o, (length o <= 1)%nat /\ inv s' (o ++ rest) /\
    (false = false -> t_set s' = l /\ forall a, countb (isHold a) o = countb (isHold a) own + count (took a) ev - count (gave a) ev) /\
    (false = true -> Q -> sane lo (t_set s')) /\ wf Q lo false (t_set s') o k.
Proof.
  intros W LO I E C. exists own'. split; auto. split; auto. split; [intros _; split; auto|]. split; [discriminate|]. apply (wf_packet_set Q lo set). auto.
Qed.
Lemma quiet_count own a : countb (isHold a) own = countb (isHold a) own + count (took a) [] - count (gave a) [].
Proof. unfold count. cbn. lia. Qed.

(** Reading the table of an object that is held *)
Lemma wf_read set own reg hash k : (length own <= 1)%nat ->
  (forall s rest, inv s (own ++ rest) -> reg s <> None) ->
  (forall fw, wf Q lo false set own (k fw)) -> wf Q lo false set own (readTable reg hash k).
Proof.
  intros LO R K. unfold readTable. cbn [wf]. split; auto. intros s rest I _ _ _ _. specialize (R s rest I) as R1.
  destruct (reg s) as [r|]; [|congruence]. destruct (mM (t_mem s r) =? 0); auto.
  destruct (aget _ _) as [i| | |]; auto. destruct (i <? 0).
  - apply (wf_next set _ own _ _ _ own); auto. intros a. apply quiet_count.
  - apply (wf_next set _ own _ _ _ own); auto; [|intros a; apply quiet_count]. cbn [wf]. split; auto.
    intros s1 rest1 I1 _ _ _ _. specialize (R s1 rest1 I1) as R2. destruct (reg s1) as [r1|]; [|congruence].
    destruct (aget _ _) as [fw| | |]; auto. apply (wf_next set _ own _ _ _ own); auto. intros a. apply quiet_count.
Qed.
Lemma wf_first set h now done k fi fw : wf Q lo false set [] (firstFragment h now done k fi fw).
Proof.
  unfold firstFragment. destruct fi as [id|]; [|apply wf_stop]. cbn [wf]. split; auto. intros s rest I _ _ _ _.
  destruct (Frag_Model.call_op _ _ _ _) as [[ft ob]| | |]; auto. destruct (retOf ob) as [[rc v]|]; auto.
  apply (wf_next set _ [] _ _ _ []); [reflexivity|cbn; lia|apply (inv_ext s); auto|reflexivity|intros a; apply quiet_count].
Qed.
Lemma wf_other set h now done k data : wf Q lo false set [] (otherFragment h now done k data).
Proof.
  unfold otherFragment. cbn [wf]. split; auto. intros s rest I _ _ _ _.
  destruct (Frag_Model.call_op _ _ _ _) as [[ft ob]| | |]; auto. destruct (retOf ob) as [[rc v]|]; auto.
  assert (H : forall z, exists o, (length o <= 1)%nat /\ inv (set_ft s ft []) (o ++ rest) /\
    (false = false -> t_set (set_ft s ft []) = t_set s /\ forall a, countb (isHold a) o = countb (isHold a) [] + count (took a) [] - count (gave a) []) /\
    (false = true -> Q -> sane lo (t_set (set_ft s ft []))) /\ wf Q lo false (t_set (set_ft s ft [])) o (Ret (Verdict z))).
  { intros z. apply (wf_next set _ [] _ _ _ []); [reflexivity|cbn; lia|apply (inv_ext s); auto|reflexivity|intros a; apply quiet_count]. }
  destruct rc; [destruct v; [apply H|discriminate]|apply H|apply H].
Qed.
Lemma wf_forward set h now done rc k fi a : h_trace h = false ->
  wf Q lo false set (if a =? 0 then [] else [Hold a]) (forward h now done rc k fi a).
Proof.
  intros T. unfold forward. destruct (Z.eqb_spec a 0) as [E|N]; [reflexivity|]. apply wf_read.
  - cbn. lia.
  - intros s rest I. unfold lbRegion. destruct (i_live _ _ I a N) as (o & ->); [|discriminate].
    cbn [app]. rewrite refs_hold, Z.eqb_refl. pose proof (refs_nonneg (t_set s) rest a). lia.
  - intros fw. apply wf_release; auto. intros set' _. unfold traceTarget. rewrite T.
    destruct (fw <? 0); [reflexivity|]. destruct (_ =? 0); [reflexivity|]. apply wf_first.
Qed.

(** What a lookup finds *)
Lemma lookup_ref ping set k eth pkt : kproto k <> 1 -> kproto k <> 58 -> forall u a u',
  flowLookup ping set k eth pkt u = Ok (a, u') -> a <> 0 ->
  exists f, In f set /\ f_ref f = a /\ u' = f_udpencap f /\
    match f_protocols f with None => true | Some l => existsb (Z.eqb (kproto k)) l end = true.
Proof.
  intros P1 P2. induction set as [|f set IH]; intros u a u' H N; cbn [flowLookup] in H; [congruence|].
  destruct (flowMatch ping k f eth pkt) as [v| | |] eqn:EM; cbn [obind] in H; try discriminate.
  destruct (Z.eqb_spec (match v with NoMatch => 0 | _ => f_ref f end) 0) as [E|E].
  - apply IH in H; auto. destruct H as (g & G & HG). exists g. split; [right|]; auto.
  - exists f. split; [left; auto|]. unfold flowMatch in EM.
    rewrite (proj2 (Z.eqb_neq _ _) P1), (proj2 (Z.eqb_neq _ _) P2) in EM. cbn [orb] in EM. rewrite Bool.andb_false_r, Bool.andb_false_l in EM.
    destruct (negb (inCidrs (f_dsts f) (k_dst k))); [assert (v = NoMatch) as -> by congruence; congruence|].
    destruct (negb (inCidrs (f_srcs f) (k_src k))); [assert (v = NoMatch) as -> by congruence; congruence|].
    destruct (match f_protocols f with None => true | Some l => existsb (Z.eqb (kproto k)) l end); cbn [negb] in EM;
      [|assert (v = NoMatch) as -> by congruence; congruence].
    destruct (inPorts _ _) as [d| | |]; cbn [obind] in EM; try discriminate. destruct d; cbn [negb] in EM; [|assert (v = NoMatch) as -> by congruence; congruence].
    destruct (inPorts _ _) as [d| | |]; cbn [obind] in EM; try discriminate. destruct d; cbn [negb] in EM; [|assert (v = NoMatch) as -> by congruence; congruence].
    match type of EM with context [obind ?x _] => destruct x as [m| | |]; cbn [obind] in EM; try discriminate end.
    destruct m; [assert (v = Match) as -> by congruence|assert (v = NoMatch) as -> by congruence; congruence].
    assert (f_ref f = a /\ f_udpencap f = u') as (? & ?) by (split; congruence). auto.
Qed.
Lemma lookup_ref' ping set k eth pkt : forall u a u', flowLookup ping set k eth pkt u = Ok (a, u') -> a <> 0 ->
  exists f, In f set /\ f_ref f = a.
Proof.
  induction set as [|f set IH]; intros u a u' H N; cbn [flowLookup] in H; [congruence|].
  destruct (flowMatch ping k f eth pkt) as [v| | |] eqn:EM; cbn [obind] in H; try discriminate.
  destruct (Z.eqb_spec (match v with NoMatch => 0 | _ => f_ref f end) 0) as [E|E].
  - apply IH in H; auto. destruct H as (g & G & HG). exists g. split; [right|]; auto.
  - exists f. split; [left; auto|]. destruct v; congruence.
Qed.

(** [P a u]: what the rest may assume of the result *)
Lemma wf_lookup set h k eth data kont :
  (forall a u, (a <> 0 -> kproto k = 17 -> u = 0) -> wf Q lo false set (if a =? 0 then [] else [Hold a]) (kont a u)) ->
  wf Q lo false set [] (lookup h k eth data 0 kont).
Proof.
  intros K. unfold lookup. cbn [wf]. split; auto. intros s rest I _ _ B _. cbn [app] in I.
  destruct (flowLookup _ _ _ _ _ _) as [[a u]| | |] eqn:EL; auto. destruct (Z.eqb_spec a 0) as [E|N].
  - specialize (K 0 u). cbn [Z.eqb] in K. apply (wf_next set _ [] _ _ _ []); [apply K; congruence|cbn; lia|exact I|reflexivity|intros b; apply quiet_count].
  - destruct (lookup_ref' _ _ _ _ _ _ _ _ EL N) as (f & F1 & F2). pose proof (ref_flow (t_set s) rest f F1) as RF. rewrite F2 in RF.
    pose proof (refs_le (t_set s) rest a). destruct (inv_lock s rest a I) as (s' & -> & I' & ES); auto; try lia.
    apply (wf_next set _ [] _ _ _ [Hold a]); [|cbn; lia|exact I'|auto|].
    + specialize (K a u). rewrite (proj2 (Z.eqb_neq a 0) N) in K. apply K. intros _ P17.
      destruct (lookup_ref (h_ping h) (t_set s) k eth (Some data)) with (u := 0) (a := a) (u' := u) as (g & G1 & G2 & G3 & G4); auto; try congruence.
      destruct (Z.eq_dec (f_udpencap g) 0) as [Z0|NZ]; [congruence|]. exfalso.
      assert (NR : f_ref g <> 0) by congruence. rewrite P17, (gs_udp _ (i_set _ _ I) g G1 NR NZ) in G4. discriminate.
    + intros b. unfold count. rewrite countb_cons, !countb_nil. cbn [isHold filter took gave]. destruct (a =? b); reflexivity.
Qed.
Lemma wf_classify set h now done eth data rc k fi : h_trace h = false -> ~ (kproto k = 17 /\ kdport k = 0) ->
  wf Q lo false set [] (classify h now done eth data rc k fi).
Proof.
  intros T G. unfold classify. apply wf_lookup. intros a u H.
  destruct (Z.eqb_spec (kproto k) 17) as [P|P]; cbn [andb]; [|apply wf_forward; auto].
  destruct (Z.eqb_spec (kdport k) u) as [D|D]; [|apply wf_forward; auto].
  destruct (Z.eqb_spec a 0) as [->|N]; [|exfalso; apply G; split; auto; rewrite D; auto].
  destruct (getHashKey _ _ _ _) as [[[[rc' k'] fi']|]| | |]; try apply wf_stop; [|reflexivity].
  apply wf_lookup. intros a' u' _. apply wf_forward. auto.
Qed.
Lemma wf_packet set h now done eth data : h_trace h = false -> good_packet eth data ->
  wf Q lo false set [] (packet h now done eth data).
Proof.
  intros T G. unfold packet. destruct (getHashKey _ _ _ _) as [[[[rc k] fi]|]| | |] eqn:EK; try apply wf_stop; [|reflexivity].
  specialize (G rc k fi EK). destruct (Z.eqb_spec (Z.land rc 3) 0) as [E|E].
  - apply wf_classify; auto. apply G. lia.
  - assert (L : wf Q lo false set [] (if Z.land rc 1 =? 0 then otherFragment h now done k data
                     else classify h now done eth data rc k fi)).
    { destruct (Z.eqb_spec (Z.land rc 1) 0) as [F|F]; [apply wf_other|]. apply wf_classify; auto. apply G. intros C. apply F.
      change 1 with (Z.land 3 1). rewrite Z.land_assoc, C. reflexivity. }
    unfold tier. destruct (h_tier h) as [[r own]|]; auto. apply wf_read; auto; [intros; discriminate|].
    intros fw. destruct (_ && _); [reflexivity|]. exact L.
Qed.

(** ** Executions *)
Lemma Forall2_znth {A B} (R : A -> B -> Prop) l m i x : Forall2 R l m -> znth l i = Some x ->
  exists l1 l2 m1 y m2, l = l1 ++ x :: l2 /\ m = m1 ++ y :: m2 /\ R x y /\ Forall2 R l1 m1 /\ Forall2 R l2 m2 /\
    forall x', zupd l i x' = l1 ++ x' :: l2.
Proof.
  intros H E. destruct (Conntrack2_Proofs.znth_split _ l i x E) as (l1 & l2 & E1 & E2). exists l1, l2. rewrite E1 in H.
  apply Forall2_app_inv_l in H. destruct H as (m1 & m' & H1 & H2 & ->). inversion H2 as [|? y ? m2 H3 H4]; subst m'.
  exists m1, y, m2. split; auto. 
Qed.
Lemma concat_len {A} (l : list (list A)) : Forall (fun o => (length o <= 1)%nat) l -> zlen (concat l) <= zlen l.
Proof.
  unfold zlen. induction 1 as [|o l H1 H2 IH]; cbn [concat length]; [lia|]. rewrite app_length. lia.
Qed.
Lemma Forall2_len {A B} (R : A -> B -> Prop) l m : Forall2 R l m -> length l = length m.
Proof. induction 1; cbn; congruence. Qed.

(** [held a]: references packets hold *)
Definition winv (w : world) (held : Z -> Z) : Prop :=
  exists ownF owns,
    (length ownF <= 1)%nat /\ Forall (fun o => (length o <= 1)%nat) owns /\
    inv (w_st w) (ownF ++ concat owns) /\ (Q -> sane lo (t_set (w_st w))) /\ wf Q lo true (t_set (w_st w)) ownF (w_flow w) /\
    Forall2 (fun p o => wf Q lo false [] o p) (w_pk w) owns /\
    forall a, held a = countb (isHold a) (concat owns).

Definition by_packet (m : move) (ev : list event) : list event := match m with PacketStep _ => ev | _ => [] end.

Lemma idle_wf fl set own p : idle p = true -> wf Q lo fl set own p -> own = [].
Proof. destruct p; cbn; [auto|discriminate]. Qed.

Lemma winv_step h w m held : libc_ok (h_lib h) -> h_trace h = false -> winv w held -> orderly h w m ->
  (Q -> forall c, m = Command c -> survivable lo c) ->
  match step h w m with
  | Some (Cont w' ev) => winv w' (fun a => held a + count (took a) (by_packet m ev) - count (gave a) (by_packet m ev))
  | Some Bad => False
  | Some Halt => m = FlowStep -> ~ Q
  | None => True
  end.
Proof.
  intros HL HT (ownF & owns & L1 & L2 & I & SN & WF & WP & HH) (B & O) SV.
  assert (LC := concat_len owns L2). assert (LP := Forall2_len _ _ _ WP).
  assert (QQ : forall a, held a + count (took a) [] - count (gave a) [] = countb (isHold a) (concat owns)).
  { intros a. rewrite HH. unfold count. cbn. lia. }
  destruct m as [now done eth data|c| |i|shm mem]; cbn [step].
  - exists ownF, (owns ++ [[]]). cbn [w_st w_flow w_pk]. rewrite concat_app. cbn [concat]. rewrite !app_nil_r.
    split; auto. split; [apply Forall_app; split; auto|]. split; auto. split; auto. split; auto. split; [|exact QQ].
    apply Forall2_app; auto. constructor; [|constructor]. apply wf_packet; auto.
  - destruct (idle (w_flow w)) eqn:ID; auto. exists ownF, owns. cbn [w_st w_flow w_pk].
    split; auto. split; auto. split; auto. split; auto. split; [|split; auto]. rewrite (idle_wf _ _ _ _ ID WF). apply wf_command; auto.
  - cbn [orderly] in O. destruct (w_flow w) as [r|l f] eqn:EF; auto. cbn [wf] in WF. destruct WF as (_ & WF).
    specialize (WF (w_st w) (concat owns) I (fun _ => eq_refl)).
    assert (OL : okl l (w_st w)) by (destruct l; auto; contradiction). specialize (WF OL).
    assert (BB : zlen (concat owns) + zlen (t_set (w_st w)) + 2 < 2147483648) by (unfold zlen in *; lia).
    specialize (WF BB (fun _ => SN)).
    destruct (f (w_st w)) as [ev s' p'| |]; auto.
    + destruct WF as (own' & A1 & A2 & _ & A3 & A4).
      exists own', owns. cbn [w_st w_flow w_pk by_packet]. repeat (split; auto).
  - destruct (znth (w_pk w) i) as [[r|l f]|] eqn:EZ; auto.
    destruct (Forall2_znth _ _ _ _ _ WP EZ) as (p1 & p2 & o1 & y & o2 & E1 & E2 & W & W1 & W2 & EU).
    cbn [wf] in W. destruct W as (WQ & W). specialize (WQ eq_refl). subst l owns.
    assert (P : forall z, Permutation (ownF ++ concat (o1 ++ z :: o2)) (z ++ ownF ++ concat o1 ++ concat o2)).
    { intros z. rewrite concat_app. cbn [concat].
      replace (ownF ++ concat o1 ++ z ++ concat o2) with (((ownF ++ concat o1) ++ z) ++ concat o2) by (rewrite <- !app_assoc; auto).
      replace (z ++ ownF ++ concat o1 ++ concat o2) with ((z ++ (ownF ++ concat o1)) ++ concat o2) by (rewrite <- !app_assoc; auto).
      apply Permutation_app_tail, Permutation_app_comm. }
    apply (inv_perm _ _ _ (P y)) in I.
    apply Forall_app in L2. destruct L2 as (L2 & L3). apply Forall_cons_iff in L3. destruct L3 as (L3 & L4).
    specialize (W (w_st w) _ I (fun X => match Bool.diff_false_true X with end) Logic.I).
    assert (BB : zlen (ownF ++ concat o1 ++ concat o2) + zlen (t_set (w_st w)) + 2 < 2147483648).
    { pose proof (concat_len o1 L2). pose proof (concat_len o2 L4). unfold zlen in *. rewrite !app_length in *. cbn [length] in *. lia. }
    specialize (W BB (fun X => match Bool.diff_false_true X with end)). destruct (f (w_st w)) as [ev s' p'| |]; auto; [|discriminate].
    destruct W as (own' & A1 & A2 & A3 & _ & A4). destruct (A3 eq_refl) as (A5 & A6).
    exists ownF, (o1 ++ own' :: o2). cbn [w_st w_flow w_pk by_packet]. rewrite EU, A5.
    split; auto. split; [apply Forall_app; split; auto|]. split; [apply (inv_perm _ _ _ (Permutation_sym (P own'))); auto|].
    split; auto. split; auto. split; [apply Forall2_app; auto; constructor; auto; apply (wf_packet_set Q lo (t_set s')); auto|].
    intros a. rewrite HH, !concat_app. cbn [concat]. rewrite !countb_app, A6. lia.
  - exists ownF, owns. cbn [w_st w_flow w_pk]. split; auto. split; auto. split; [apply (inv_ext (w_st w)); auto|]. repeat (split; auto).
Qed.

Lemma count_app e l m : count e (l ++ m) = count e l + count e m.
Proof. unfold count. rewrite filter_app. unfold zlen. rewrite app_length. lia. Qed.
Lemma lookups_step tr m ev a : lookups (tr ++ [(m, ev)]) a = lookups tr a + count (took a) (by_packet m ev) - count (gave a) (by_packet m ev).
Proof.
  unfold lookups, by_packets. rewrite flat_map_app. cbn [flat_map fst snd]. rewrite app_nil_r.
  change (match m with PacketStep _ => ev | _ => [] end) with (by_packet m ev). rewrite !count_app. lia.
Qed.
Lemma winv_ext w h1 h2 : (forall a, h1 a = h2 a) -> winv w h1 -> winv w h2.
Proof. intros E (a & b & A1 & A2 & A3 & A4 & A5 & A6 & A7). exists a, b. repeat (split; auto). intros c. rewrite <- E. auto. Qed.

Lemma winv_start h shm mem : winv (start h shm mem) (fun _ => 0).
Proof.
  exists [], []. cbn [start w_st w_flow w_pk concat app]. split; [cbn; lia|]. split; auto. split; [|split; [intros _ f []|split; [reflexivity|split; [constructor|reflexivity]]]].
  set (s := mkSt _ _ _ _ _ _ _). assert (D : forall a, deref s a = None).
  { intros a. unfold deref. cbn [s t_objs]. rewrite znth_out; auto. unfold zlen. cbn. lia. }
  assert (NL : forall a, ~ live s a) by (intros a (o & K); rewrite D in K; discriminate).
  constructor.
  - intros a o K. rewrite D in K. discriminate.
  - intros a _ K. unfold refs, countb, zlen in K. cbn in K. lia.
  - intros a K. destruct (NL a K).
  - intros a K. unfold countb, zlen in K. cbn in K. lia.
  - intros a. cbn [s t_list In]. split; [intros []|intros (K & _); destruct (NL a K)].
  - constructor.
  - constructor; [constructor| | |]; intros f [].
Qed.
Lemma winv_exec h shm mem tr w (ok : world -> move -> Prop) : libc_ok (h_lib h) -> h_trace h = false ->
  (forall w m, ok w m -> orderly h w m /\ (Q -> forall c, m = Command c -> survivable lo c)) ->
  exec h ok (start h shm mem) tr w -> winv w (lookups tr).
Proof.
  intros HL HT OK H. remember (start h shm mem) as w0 eqn:E. induction H as [w|w tr w1 m ev w2 H IH O S1].
  - subst w. apply (winv_ext _ (fun _ => 0)); auto. apply winv_start.
  - specialize (IH E). destruct (OK _ _ O) as (O1 & O2). pose proof (winv_step h w1 m (lookups tr) HL HT IH O1 O2) as K. rewrite S1 in K.
    apply (winv_ext _ _ _ (fun a => eq_sym (lookups_step tr m ev a))). auto.
Qed.

End Survive.

(** ** C43 *)
Definition winv_orderly h shm mem tr w HL HT := winv_exec False 0 h shm mem tr w (orderly h) HL HT (fun w m O => conj O (False_ind _)).
Lemma never_bad h shm mem tr w m : libc_ok (h_lib h) -> h_trace h = false ->
  exec h (orderly h) (start h shm mem) tr w -> orderly h w m -> step h w m <> Some Bad.
Proof.
  intros HL HT H O. pose proof (winv_step False 0 h w m _ HL HT (winv_orderly h shm mem tr w HL HT H) O (False_ind _)) as K.
  intros E. rewrite E in K. auto.
Qed.
Lemma hold_le (own : list token) a : (length own <= 1)%nat -> 0 <= countb (isHold a) own <= 1.
Proof.
  intros L. pose proof (countb_nonneg _ (isHold a) own). pose proof (countb_le _ (isHold a) own). unfold zlen in *. lia.
Qed.
Lemma counted h shm mem tr w : libc_ok (h_lib h) -> h_trace h = false ->
  exec h (orderly h) (start h shm mem) tr w ->
  (forall a, live (w_st w) a -> let n := references (w_st w) a - (flows (w_st w) a + lookups tr a) in
     (idle (w_flow w) = true -> n = 0) /\ 0 <= n <= 1) /\
  (forall a, a <> 0 -> 0 <= flows (w_st w) a /\ 0 <= lookups tr a /\
     (0 < flows (w_st w) a + lookups tr a -> live (w_st w) a)) /\
  (quiescent w -> forall a, live (w_st w) a -> 0 < flows (w_st w) a /\ lookups tr a = 0).
Proof.
  intros HL HT H. destruct (winv_orderly h shm mem tr w HL HT H) as (ownF & owns & L1 & L2 & I & _ & WF & WP & HH).
  assert (F : forall a, flows (w_st w) a = countb (fun f => f_ref f =? a) (t_set (w_st w))) by reflexivity.
  split; [|split].
  - intros a (o & D). cbv zeta. unfold references. rewrite D, (i_ref _ _ I a o D). unfold refs.
    rewrite F, HH, countb_app. pose proof (hold_le ownF a L1). split; [|lia]. intros ID. rewrite (idle_wf _ _ _ _ _ _ ID WF), countb_nil. lia.
  - intros a N. rewrite F, HH. split; [apply countb_nonneg|]. split; [apply countb_nonneg|]. intros P. apply (i_live _ _ I a N).
    unfold refs. rewrite countb_app. pose proof (hold_le ownF a L1). lia.
  - intros (Q1 & Q2) a LV. assert (EO : concat owns = []).
    { clear - Q2 WP. revert Q2. induction WP as [|p o l m W WP IH]; intros Q; auto. apply Forall_cons_iff in Q. destruct Q as (Q1 & Q2).
      cbn [concat]. rewrite (idle_wf _ _ _ _ _ _ Q1 W). auto. }
    rewrite HH, EO, F. split; [|reflexivity]. rewrite EO, app_nil_r, (idle_wf _ _ _ _ _ _ Q1 WF) in I.
    pose proof (countb_nonneg _ (fun f => f_ref f =? a) (t_set (w_st w))).
    destruct (Z.eq_dec (countb (fun f => f_ref f =? a) (t_set (w_st w))) 0) as [E|E]; [|lia].
    assert (R : refs (t_set (w_st w)) [] a = 0) by (unfold refs; rewrite countb_nil; lia).
    pose proof (i_end1 _ _ I a LV R) as K. rewrite countb_nil in K. lia.
Qed.

(** ** C64 *)
Lemma never_halts h lo shm mem tr w : libc_ok (h_lib h) -> h_trace h = false ->
  exec h (survivable_move h lo) (start h shm mem) tr w -> orderly h w FlowStep ->
  step h w FlowStep <> Some Halt /\ step h w FlowStep <> Some Bad.
Proof.
  intros HL HT H O.
  assert (W : winv True lo w (lookups tr)).
  { apply (winv_exec True lo h shm mem tr w (survivable_move h lo) HL HT); auto. intros w0 m (A & B). auto. }
  pose proof (winv_step True lo h w FlowStep _ HL HT W O) as K.
  assert (X : True -> forall c, FlowStep = Command c -> survivable lo c) by discriminate. specialize (K X).
  split; intros E; rewrite E in K; auto. apply K; auto.
Qed.
