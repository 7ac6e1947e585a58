(** No packet is held up for ever (C90). *)
From Coq Require Import String.
From Verif Require Import Base Lists IpKey_Model Flow_Model FlowLb_Model FlowLb_Spec Lb_Model Lb_Spec Lb2_Proofs Tier_Model Tier_Spec Tier2_Proofs Tier4_Proofs Tier5_Proofs Soon_Spec.
From Verif Require Frag_Model.

(** The memory of the tables stays as it is, and no load-balancer objects come. *)
Definition mild (s s' : state) : Prop :=
  t_mem s' = t_mem s /\ forall a o', deref s' a = Some o' -> exists o, deref s a = Some o /\ lb_region o = lb_region o'.
Lemma mild_refl s : mild s s.
Proof. split; eauto. Qed.
Lemma mild_ft s f t : mild s (set_ft s f t).
Proof. split; [reflexivity|]. intros a o' E. exists o'. split; [exact E|reflexivity]. Qed.
Lemma mild_list s l : mild s (set_list s l).
Proof. split; [reflexivity|]. intros a o' E. exists o'. split; [exact E|reflexivity]. Qed.
Lemma mild_put s a o n : deref s a = Some o -> lb_region n = lb_region o -> mild s (put s a n).
Proof.
  intros E R. split; [reflexivity|]. intros b o' E'. unfold deref in *. cbn [put set_objs t_objs] in E'. destruct (znth (t_objs s) (a - 1)) as [oa|] eqn:EA; [|discriminate].
  destruct (Z.eq_dec (b - 1) (a - 1)) as [EB|NB].
  - rewrite EB in *. rewrite znth_zupd_eq in E' by (eapply znth_some_range; eauto). destruct (lb_freed n); [discriminate|]. injection E' as <-. rewrite EA. exists o. split; [exact E|congruence].
  - rewrite znth_zupd_neq in E' by auto. exists o'. split; [exact E'|reflexivity].
Qed.
Lemma mild_lock s a s' : lockRef s a = Some s' -> mild s s'.
Proof. unfold lockRef. destruct (deref s a) as [o|] eqn:E; [|discriminate]. intros X. injection X as <-. eapply mild_put; eauto. Qed.

(** At most n steps to a verdict *)
Fixpoint soon (n : nat) (p : prog) : Prop :=
  match p with
  | Ret (Verdict _) => True
  | Ret _ => False
  | Act _ f =>
      match n with
      | O => False
      | S n => forall s, match f s with Next _ s' q => mild s s' /\ soon n q | _ => True end
      end
  end.
Lemma soon_more n p : soon n p -> soon (S n) p.
Proof.
  revert p. induction n as [|n IH]; intros [[v|m]|l f]; cbn [soon]; auto; [contradiction|].
  intros H s. specialize (H s). destruct (f s); auto. destruct H as (M & H). split; [exact M|]. apply IH. auto.
Qed.
Lemma soon_le n m p : (n <= m)%nat -> soon n p -> soon m p.
Proof. induction 1; auto. intros W. apply soon_more. auto. Qed.
Lemma soon_act n l f : (forall s, match f s with Next _ s' q => mild s s' /\ soon n q | _ => True end) -> soon (S n) (Act l f).
Proof. auto. Qed.
Lemma soon_v n v : soon n (Ret (Verdict v)).
Proof. destruct n; exact I. Qed.
Lemma soon_stop n : soon (S n) stop.
Proof. cbn. auto. Qed.
Lemma soon_release n l a k : soon n k -> soon (3 + n) (release l a k).
Proof.
  intros K. unfold release. destruct (a =? 0); [apply (soon_le n); [lia|auto]|]. apply soon_act; intros s.
  destruct (deref s a) eqn:E; auto. destruct (_ <? 0); auto. destruct (_ =? 0); (split; [eapply mild_put; eauto|]); [|apply (soon_le n); [lia|auto]].
  apply soon_act; intros s2. destruct (deref s2 a); auto. destruct (unlink s2 (t_list s2) a); auto. split; [apply mild_list|].
  apply soon_act; intros s3. destruct (deref s3 a) eqn:E3; auto. split; [eapply mild_put; eauto|exact K].
Qed.
Lemma soon_read n reg hash k : (forall fw, soon n (k fw)) -> soon (2 + n) (readTable reg hash k).
Proof.
  intros K. unfold readTable. apply soon_act; intros s. destruct (reg s) as [r|]; auto. destruct (_ =? 0); auto.
  destruct (aget _ _) as [i| | |]; auto. destruct (i <? 0); (split; [apply mild_refl|]); [apply soon_more; auto|].
  apply soon_act; intros s2. destruct (reg s2) as [r2|]; auto. destruct (aget _ _) as [fw| | |]; auto. split; [apply mild_refl|auto].
Qed.
Lemma soon_first h now dn k fi fw : soon 1 (firstFragment h now dn k fi fw).
Proof.
  unfold firstFragment. destruct fi as [id|]; [|apply soon_stop]. apply soon_act; intros s.
  destruct (Frag_Model.call_op _ _ _ _) as [[ft ob]| | |]; auto. destruct (retOf ob) as [[rc v]|]; auto. split; [apply mild_ft|apply soon_v].
Qed.
Lemma soon_other h now dn k data : soon 1 (otherFragment h now dn k data).
Proof.
  unfold otherFragment. apply soon_act; intros s. destruct (Frag_Model.call_op _ _ _ _) as [[ft ob]| | |]; auto.
  destruct (retOf ob) as [[rc v]|]; auto. destruct rc, v; auto; (split; [apply mild_ft|apply soon_v]).
Qed.
Lemma soon_tier n h k p : soon n p -> soon (2 + n) (tier h k p).
Proof.
  intros K. unfold tier. destruct (h_tier h) as [[r own]|]; [|apply (soon_le n); [lia|auto]].
  apply soon_read. intros fw. destruct (_ && _); [apply soon_v|auto].
Qed.
Lemma soon_forward h now dn rc k fi a : soon 7 (forward h now dn rc k fi a).
Proof.
  unfold forward. destruct (a =? 0); [apply soon_v|]. apply (soon_read 5). intros fw. apply (soon_release 2).
  assert (K : soon 1 (if fw <? 0 then Ret (Verdict (h_notargets h)) else if Z.land rc 1 =? 0 then Ret (Verdict fw) else firstFragment h now dn k fi fw)).
  { destruct (fw <? 0); [apply soon_v|]. destruct (_ =? 0); [apply soon_v|apply soon_first]. }
  unfold traceTarget. destruct (h_trace h); [|apply soon_more; auto]. apply soon_act; intros s. destruct (deref s a); auto. split; [apply mild_refl|exact K].
Qed.
Lemma soon_lookup n h k eth data u kont : (forall a u', soon n (kont a u')) -> soon (S n) (lookup h k eth data u kont).
Proof.
  intros K. unfold lookup. apply soon_act; intros s. destruct (flowLookup _ _ _ _ _ _) as [[a u']| | |]; auto.
  destruct (a =? 0); [split; [apply mild_refl|auto]|]. destruct (lockRef s a) eqn:E; auto. split; [eapply mild_lock; eauto|auto].
Qed.
Lemma soon_classify h now dn eth data rc k fi : soon 9 (classify h now dn eth data rc k fi).
Proof.
  unfold classify. apply soon_lookup. intros a u. destruct (_ && _); [|apply soon_more, soon_forward].
  destruct (getHashKey _ _ _ _) as [[[[rc' k'] fi']|]| | |]; try exact (soon_stop _); [|apply soon_v].
  apply soon_lookup. intros a' _. apply soon_forward.
Qed.
Lemma soon_packet h now dn eth data : soon 11 (packet h now dn eth data).
Proof.
  unfold packet. destruct (getHashKey _ _ _ _) as [[[[rc k] fi]|]| | |]; try exact (soon_stop _); [|apply soon_v].
  destruct (_ =? 0); [apply (soon_le 9); [lia|apply soon_classify]|]. apply (soon_tier 9).
  destruct (_ =? 0); [apply (soon_le 1); [lia|apply soon_other]|apply soon_classify].
Qed.
Lemma soon_lb g now dn eth data : soon 5 (lbPacket g now dn eth data).
Proof.
  assert (B : forall rc k fi, soon 3 (balance g now dn rc k fi)).
  { intros rc k fi. unfold balance. apply (soon_read 1). intros fw. destruct (fw <? 0); [apply soon_v|]. destruct (_ =? 0); [apply soon_v|apply soon_first]. }
  unfold lbPacket. destruct (getHashKey _ _ _ _) as [[[[rc k] fi]|]| | |]; try exact (soon_stop _); [|apply soon_v].
  destruct (_ =? 0); [apply (soon_le 3); [lia|apply B]|]. apply (soon_tier 3).
  destruct (_ =? 0); [apply (soon_le 1); [lia|apply soon_other]|apply B].
Qed.
Lemma soon_handler c now dn eth data : soon 11 (handler c now dn eth data).
Proof. destruct c as [h|g]; cbn [handler]; [apply soon_packet|apply (soon_le 5); [lia|apply soon_lb]]. Qed.

(** A step of a load-balancer changes a program only if it is the one's own. *)
Lemma pstep_soon c w m w' ev n p : pstep c w m = Some (Cont w' ev) -> znth (w_pk w) n = Some p ->
  exists p', znth (w_pk w') n = Some p' /\
    (m <> PacketStep n /\ p' = p \/ m = PacketStep n /\ exists l f ev' s', p = Act l f /\ f (w_st w) = Next ev' s' p').
Proof.
  intros ST EN. assert (RN : 0 <= n < zlen (w_pk w)) by (eapply znth_some_range; eauto).
  assert (STEP : forall j l f ev' s' p' fl, znth (w_pk w) j = Some (Act l f) -> f (w_st w) = Next ev' s' p' ->
     exists p0, znth (w_pk (mkW s' fl (zupd (w_pk w) j p'))) n = Some p0 /\
     (PacketStep j <> PacketStep n /\ p0 = p \/ PacketStep j = PacketStep n /\ exists l f ev' s', p = Act l f /\ f (w_st w) = Next ev' s' p0)).
  { intros j l f ev' s' p' fl EJ EF. cbn [w_pk]. destruct (Z.eq_dec j n) as [->|NE].
    - exists p'. split; [apply znth_zupd_eq; auto|]. right. split; [reflexivity|]. exists l, f, ev', s'. split; [congruence|exact EF].
    - exists p. split; [rewrite znth_zupd_neq; auto|]. left. split; [congruence|reflexivity]. }
  destruct c as [h|g]; cbn [pstep] in ST.
  - destruct m as [now dn eth data|cmd| |j|shm' mem']; cbn [step] in ST.
    + injection ST as <- <-. exists p. split; [apply znth_app_l; auto|]. left. split; [discriminate|reflexivity].
    + destruct (idle (w_flow w)); [|discriminate]. injection ST as <- <-. exists p. split; [auto|]. left. split; [discriminate|reflexivity].
    + destruct (w_flow w) as [r|l f]; [discriminate|]. destruct (f (w_st w)) as [ev' s' p'| |]; try discriminate. injection ST as <- <-. exists p. split; [auto|]. left. split; [discriminate|reflexivity].
    + destruct (znth (w_pk w) j) as [[r|l f]|] eqn:EJ; try discriminate. destruct (f (w_st w)) as [ev' s' p'| |] eqn:EF; try discriminate. injection ST as <- <-. eapply STEP; eauto.
    + injection ST as <- <-. exists p. split; [auto|]. left. split; [discriminate|reflexivity].
  - destruct m as [now dn eth data|cmd| |j|shm' mem']; cbn [plainMove lstep lw_st lw_pk] in ST; try discriminate.
    + injection ST as <- <-. exists p. split; [apply znth_app_l; auto|]. left. split; [discriminate|reflexivity].
    + destruct (znth (w_pk w) j) as [[r|l f]|] eqn:EJ; try discriminate. destruct (f (w_st w)) as [ev' s' p'| |] eqn:EF; try discriminate. injection ST as <- <-. eapply STEP; eauto.
    + injection ST as <- <-. exists p. split; [auto|]. left. split; [discriminate|reflexivity].
Qed.
Lemma soon_step k l f ev s s' p : soon k (Act l f) -> f s = Next ev s' p -> exists k', k = S k' /\ soon k' p.
Proof. destruct k as [|k]; cbn [soon]; [contradiction|]. intros H E. specialize (H s). rewrite E in H. destruct H. eauto. Qed.
Lemma soon_mild k l f ev s s' p : soon k (Act l f) -> f s = Next ev s' p -> mild s s'.
Proof. destruct k as [|k]; cbn [soon]; [contradiction|]. intros H E. specialize (H s). rewrite E in H. apply H. Qed.

(** ** One load-balancer *)
Lemma packet_steps_snoc i tr m ev : packet_steps i (tr ++ [(m, ev)]) = packet_steps i tr + match m with PacketStep j => if j =? i then 1 else 0 | _ => 0 end.
Proof. unfold packet_steps, zlen. rewrite filter_app, app_length. destruct m as [| | |j|]; cbn; try lia. destruct (j =? i); cbn; lia. Qed.
Lemma lpacket_steps_snoc i tr m : lpacket_steps i (tr ++ [m]) = lpacket_steps i tr + match m with LStep j => if j =? i then 1 else 0 | _ => 0 end.
Proof. unfold lpacket_steps, zlen. rewrite filter_app, app_length. destruct m as [|j|]; cbn; try lia. destruct (j =? i); cbn; lia. Qed.

Lemma znth_last {A} (l : list A) (x y : A) i : znth (l ++ [x]) i = Some y -> znth l i = Some y \/ znth l i = None /\ y = x.
Proof.
  intros E. destruct (znth l i) as [z|] eqn:Z.
  - left. rewrite (znth_app_l _ [x] _ _ Z) in E. auto.
  - right. split; [reflexivity|]. destruct (znth_app1 _ _ _ _ E); [congruence|auto].
Qed.

Lemma flowlb_steps h may shm mem tr w : exec h may (start h shm mem) tr w -> forall i,
  match znth (w_pk w) i with
  | None => packet_steps i tr = 0
  | Some p => exists n, soon n p /\ packet_steps i tr + Z.of_nat n = 11
  end.
Proof.
  intros X. remember (start h shm mem) as w0 eqn:E0. induction X as [w|w tr w1 m ev w2 X IH M E]; intros i.
  - subst w. cbn [start w_pk]. replace (znth [] i) with (@None prog); [reflexivity|]. unfold znth. destruct (i <? 0); [reflexivity|]. destruct (Z.to_nat i); reflexivity.
  - specialize (IH E0). rewrite packet_steps_snoc. destruct (znth (w_pk w1) i) as [p|] eqn:EP.
    + destruct (pstep_soon (Flow h) w1 m w2 ev i p E EP) as (p' & EP' & C). rewrite EP'. pose proof (IH i) as G. rewrite EP in G. destruct G as (n & S & K).
      destruct C as [(NE & ->)|(-> & l & f & ev' & s' & -> & EF)].
      * exists n. split; [exact S|]. destruct m as [| | |j|]; try lia. destruct (Z.eqb_spec j i) as [->|]; [congruence|lia].
      * destruct (soon_step _ _ _ _ _ _ _ S EF) as (n' & -> & S'). exists n'. split; [exact S'|]. rewrite Z.eqb_refl. lia.
    + pose proof (IH i) as G. rewrite EP in G.
      assert (NS : match m with PacketStep j => if j =? i then 1 else 0 | _ => 0 end = 0).
      { destruct m as [| | |j|]; try reflexivity. destruct (Z.eqb_spec j i) as [->|]; [|reflexivity]. cbn [step] in E. rewrite EP in E. discriminate. }
      rewrite NS. destruct (znth (w_pk w2) i) as [p|] eqn:E2; [|lia]. exists 11%nat. split; [|lia].
      destruct m as [now dn eth data|cmd| |j|shm' mem']; cbn [step] in E.
      * injection E as <- <-. cbn [w_pk] in E2. destruct (znth_last _ _ _ _ E2) as [Z|(_ & ->)]; [congruence|]. apply soon_packet.
      * destruct (idle (w_flow w1)); [|discriminate]. injection E as <- <-. cbn [w_pk] in E2. congruence.
      * destruct (w_flow w1) as [r|l f]; [discriminate|]. destruct (f (w_st w1)) as [ev' s' p'| |]; try discriminate. injection E as <- <-. cbn [w_pk] in E2. congruence.
      * destruct (znth (w_pk w1) j) as [[r|l f]|] eqn:EJ; try discriminate. destruct (f (w_st w1)) as [ev' s' p'| |] eqn:EF; try discriminate. injection E as <- <-. cbn [w_pk] in E2.
        destruct (Z.eq_dec j i) as [->|NE]; [congruence|]. rewrite znth_zupd_neq in E2 by auto. congruence.
      * injection E as <- <-. cbn [w_pk] in E2. congruence.
Qed.
Lemma lb_steps g mem tr w : lexec g (lstart g mem) tr w -> forall i,
  match znth (lw_pk w) i with
  | None => lpacket_steps i tr = 0
  | Some p => exists n, soon n p /\ lpacket_steps i tr + Z.of_nat n = 5
  end.
Proof.
  intros X. remember (lstart g mem) as w0 eqn:E0. induction X as [w|w tr w1 m w2 X IH E]; intros i.
  - subst w. cbn [lstart lw_pk]. replace (znth [] i) with (@None prog); [reflexivity|]. unfold znth. destruct (i <? 0); [reflexivity|]. destruct (Z.to_nat i); reflexivity.
  - pose proof (IH E0 i) as G. rewrite lpacket_steps_snoc. clear IH.
    destruct m as [now dn eth data|j|mem']; cbn [lstep] in E.
    + injection E as <-. cbn [lw_pk]. destruct (znth (lw_pk w1 ++ _) i) as [p|] eqn:E2.
      * destruct (znth_last _ _ _ _ E2) as [Z|(Z & ->)]; rewrite Z in G; [destruct G as (n & S & K); exists n; split; [exact S|lia]|].
        exists 5%nat. split; [apply soon_lb|lia].
      * destruct (znth (lw_pk w1) i) as [p|] eqn:E1; [rewrite (znth_app_l _ _ _ _ E1) in E2; discriminate|lia].
    + destruct (znth (lw_pk w1) j) as [[r|l f]|] eqn:EJ; try discriminate. destruct (f (lw_st w1)) as [ev' s' p'| |] eqn:EF; try discriminate. injection E as <-. cbn [lw_pk].
      destruct (Z.eqb_spec j i) as [->|NE].
      * rewrite EJ in G. destruct G as (n & S & K). rewrite znth_zupd_eq by (eapply znth_some_range; eauto).
        destruct (soon_step _ _ _ _ _ _ _ S EF) as (n' & -> & S'). exists n'. split; [exact S'|lia].
      * rewrite znth_zupd_neq by auto. destruct (znth (lw_pk w1) i) as [p|]; [destruct G as (n & S & K); exists n; split; [exact S|]|]; lia.
    + injection E as <-. cbn [lw_pk]. destruct (znth (lw_pk w1) i) as [p|]; [destruct G as (n & S & K); exists n; split; [exact S|]|]; lia.
Qed.

Lemma flowlb_soon h may shm mem tr w i : exec h may (start h shm mem) tr w ->
  0 <= packet_steps i tr <= 11 /\
  forall p, znth (w_pk w) i = Some p -> (exists v, p = Ret (Verdict v)) \/ packet_steps i tr < 11 /\ step h w (PacketStep i) <> None.
Proof.
  intros X. assert (N : 0 <= packet_steps i tr) by (unfold packet_steps, zlen; lia). pose proof (flowlb_steps _ _ _ _ _ _ X i) as G.
  destruct (znth (w_pk w) i) as [p|] eqn:EP.
  - destruct G as (n & S & K). split; [lia|]. intros q E. injection E as <-. destruct p as [[v|m]|l f]; [left; eauto|destruct n; destruct S|].
    right. destruct n as [|n]; [destruct S|]. split; [lia|]. cbn [step]. rewrite EP. discriminate.
  - split; [lia|]. discriminate.
Qed.
Lemma lb_soon g mem tr w i : lexec g (lstart g mem) tr w ->
  0 <= lpacket_steps i tr <= 5 /\
  forall p, znth (lw_pk w) i = Some p -> (exists v, p = Ret (Verdict v)) \/ lpacket_steps i tr < 5 /\ lstep g w (LStep i) <> None.
Proof.
  intros X. assert (N : 0 <= lpacket_steps i tr) by (unfold lpacket_steps, zlen; lia). pose proof (lb_steps _ _ _ _ X i) as G.
  destruct (znth (lw_pk w) i) as [p|] eqn:EP.
  - destruct G as (n & S & K). split; [lia|]. intros q E. injection E as <-. destruct p as [[v|m]|l f]; [left; eauto|destruct n; destruct S|].
    right. destruct n as [|n]; [destruct S|]. split; [lia|]. cbn [lstep]. rewrite EP. discriminate.
  - split; [lia|]. discriminate.
Qed.

(** ** The LB tier *)
Section net.
Variables (H : Z -> kind) (node : Z -> bool) (peer : Z -> option Z).

(** All programs in all load-balancers come to a verdict; a packet that is inside has one. *)
Definition alive (s : net) : Prop :=
  (forall i n p, znth (w_pk (n_node s i)) n = Some p -> soon 11 p) /\
  forall p q i n, znth (n_pk s) p = Some q -> q_at q = Inside i n -> exists x, znth (w_pk (n_node s i)) n = Some x.
Lemma pstep_new c w m w' ev n p : pstep c w m = Some (Cont w' ev) -> znth (w_pk w) n = None -> znth (w_pk w') n = Some p ->
  exists now dn eth data, m = Arrive now dn eth data /\ p = handler c now dn eth data.
Proof.
  intros ST N E2. destruct c as [h|g]; cbn [pstep] in ST.
  - destruct m as [now dn eth data|cmd| |j|shm' mem']; cbn [step] in ST.
    + injection ST as <- <-. cbn [w_pk] in E2. destruct (znth_last _ _ _ _ E2) as [Z|(_ & ->)]; [congruence|]. exists now, dn, eth, data. auto.
    + destruct (idle (w_flow w)); [|discriminate]. injection ST as <- <-. cbn [w_pk] in E2. congruence.
    + destruct (w_flow w) as [r|l f]; [discriminate|]. destruct (f (w_st w)) as [ev' s' p'| |]; try discriminate. injection ST as <- <-. cbn [w_pk] in E2. congruence.
    + destruct (znth (w_pk w) j) as [[r|l f]|] eqn:EJ; try discriminate. destruct (f (w_st w)) as [ev' s' p'| |] eqn:EF; try discriminate. injection ST as <- <-. cbn [w_pk] in E2.
      destruct (Z.eq_dec j n) as [->|NE]; [congruence|]. rewrite znth_zupd_neq in E2 by auto. congruence.
    + injection ST as <- <-. cbn [w_pk] in E2. congruence.
  - destruct m as [now dn eth data|cmd| |j|shm' mem']; cbn [plainMove lstep lw_st lw_pk] in ST; try discriminate.
    + injection ST as <- <-. cbn [w_pk] in E2. destruct (znth_last _ _ _ _ E2) as [Z|(_ & ->)]; [congruence|]. exists now, dn, eth, data. auto.
    + destruct (znth (w_pk w) j) as [[r|l f]|] eqn:EJ; try discriminate. destruct (f (w_st w)) as [ev' s' p'| |] eqn:EF; try discriminate. injection ST as <- <-. cbn [w_pk] in E2.
      destruct (Z.eq_dec j n) as [->|NE]; [congruence|]. rewrite znth_zupd_neq in E2 by auto. congruence.
    + injection ST as <- <-. cbn [w_pk] in E2. congruence.
Qed.
Lemma pstep_all c w m w' ev : pstep c w m = Some (Cont w' ev) -> (forall n p, znth (w_pk w) n = Some p -> soon 11 p) ->
  forall n p, znth (w_pk w') n = Some p -> soon 11 p.
Proof.
  intros ST A n p E. destruct (znth (w_pk w) n) as [p0|] eqn:E0.
  - destruct (pstep_soon _ _ _ _ _ _ _ ST E0) as (p' & E' & C). assert (p' = p) as -> by congruence.
    destruct C as [(_ & ->)|(_ & l & f & ev' & s' & -> & EF)]; [eauto|]. destruct (soon_step _ _ _ _ _ _ _ (A _ _ E0) EF) as (k & K & S). apply (soon_le k); [lia|exact S].
  - destruct (pstep_new _ _ _ _ _ _ _ ST E0 E) as (now & dn & eth & data & -> & ->). apply soon_handler.
Qed.

Lemma node_eq f i w : set_node f i w i = w.
Proof. unfold set_node. rewrite Z.eqb_refl. reflexivity. Qed.
Lemma node_neq f i w j : j <> i -> set_node f i w j = f j.
Proof. intros N. unfold set_node. destruct (Z.eqb_spec j i); [contradiction|reflexivity]. Qed.

(** A step of load-balancer i *)
Lemma node_step s i m w ev : pstep (H i) (n_node s i) m = Some (Cont w ev) -> alive s ->
  (forall j n p, znth (w_pk (set_node (n_node s) i w j)) n = Some p -> soon 11 p) /\
  forall j n x, znth (w_pk (n_node s j)) n = Some x -> exists x', znth (w_pk (set_node (n_node s) i w j)) n = Some x' /\
    (~ (j = i /\ m = PacketStep n) /\ x' = x \/ j = i /\ m = PacketStep n /\ exists l f ev' s', x = Act l f /\ f (w_st (n_node s i)) = Next ev' s' x').
Proof.
  intros ST (A & B). split.
  - intros j n p E. destruct (Z.eq_dec j i) as [->|N]; [rewrite node_eq in E; eapply pstep_all; eauto|rewrite node_neq in E by auto; eauto].
  - intros j n x E. destruct (Z.eq_dec j i) as [->|N].
    + rewrite node_eq. destruct (pstep_soon _ _ _ _ _ _ _ ST E) as (x' & E' & C). exists x'. split; [exact E'|]. destruct C as [(C1 & ->)|(C1 & C2)]; [left; split; [intros (_ & X); auto|reflexivity]|right; auto].
    + rewrite node_neq by auto. exists x. split; [exact E|]. left. split; [intros (X & _); auto|reflexivity].
Qed.

Lemma alive_start shm mem : alive (nstart H shm mem).
Proof.
  split.
  - intros i n p E. exfalso. unfold nstart in E. cbn [n_node] in E. assert (X : w_pk (pstart (H i) (shm i) (mem i)) = []) by (destruct (H i); reflexivity). rewrite X in E.
    unfold znth in E. destruct (n <? 0); [discriminate|]. destruct (Z.to_nat n); discriminate.
  - intros p q i n E. exfalso. cbn [nstart n_pk] in E. unfold znth in E. destruct (p <? 0); [discriminate|]. destruct (Z.to_nat p); discriminate.
Qed.

(** What a move does to packet p: [k] is the number of its moves, [k0] and [h0] those at the beginning. *)
Definition pace (h0 : Z) (s : net) (p k : Z) : Prop :=
  match znth (n_pk s) p with
  | None => k = 0
  | Some q =>
      match q_at q with
      | Wire _ => k <= 13 * (q_hops q - h0)
      | Inside i n => exists x m, znth (w_pk (n_node s i)) n = Some x /\ soon m x /\ k + Z.of_nat m <= 13 * (q_hops q - h0) + 12
      | _ => k <= 13 * (q_hops q - h0) + 13
      end
  end.
Lemma alive_step s m s' : nstep H node peer s m = Some s' -> alive s -> alive s'.
Proof.
  intros ST AL. pose proof AL as (A & B). destruct m as [i eth data|p now dn|i m|p]; cbn [nstep] in ST.
  - destruct (node i); [|discriminate]. injection ST as <-. split; [exact A|]. intros p q j n E AT. cbn [n_pk n_node] in *.
    destruct (znth_last _ _ _ _ E) as [Z|(_ & ->)]; [eauto|discriminate].
  - destruct (znth (n_pk s) p) as [q|] eqn:EP; [|discriminate]. destruct (q_at q) as [i|i n|i v|i] eqn:EA; try discriminate.
    destruct (pstep (H i) (n_node s i) (Arrive now dn (q_eth q) (q_data q))) as [[w ev| |]|] eqn:PS; try discriminate. injection ST as <-.
    destruct (node_step _ _ _ _ _ PS AL) as (C1 & C2). split; [exact C1|]. cbn [n_pk n_node]. intros p' q' j n E AT.
    destruct (Z.eq_dec p' p) as [->|N].
    + rewrite znth_zupd_eq in E by (eapply znth_some_range; eauto). injection E as <-. cbn [placed q_at] in AT. injection AT as <- <-.
      rewrite node_eq. rewrite (pstep_arrive _ _ _ _ _ _ _ _ PS). eauto.
    + rewrite znth_zupd_neq in E by auto. destruct (B _ _ _ _ E AT) as (x & EX). destruct (C2 _ _ _ EX) as (x' & EX' & _). eauto.
  - assert (NA : exists w ev, pstep (H i) (n_node s i) m = Some (Cont w ev) /\ s' = mkNet (set_node (n_node s) i w) (n_pk s)).
    { destruct m; try discriminate; (destruct (node i); [|discriminate]); (destruct (pstep (H i) (n_node s i) _) as [[w ev| |]|]; try discriminate); injection ST as <-; eauto. }
    destruct NA as (w & ev & PS & ->). destruct (node_step _ _ _ _ _ PS AL) as (C1 & C2). split; [exact C1|]. cbn [n_pk n_node]. intros p q j n E AT.
    destruct (B _ _ _ _ E AT) as (x & EX). destruct (C2 _ _ _ EX) as (x' & EX' & _). eauto.
  - destruct (znth (n_pk s) p) as [q|] eqn:EP; [|discriminate]. destruct (q_at q) as [i|i n|i v|i] eqn:EA; try discriminate.
    destruct (znth (w_pk (n_node s i)) n) as [[[v|r]|l f]|] eqn:EN; try discriminate. injection ST as <-. split; [exact A|]. cbn [n_pk n_node]. intros p' q' j n' E AT.
    destruct (Z.eq_dec p' p) as [->|N].
    + rewrite znth_zupd_eq in E by (eapply znth_some_range; eauto). injection E as <-. unfold route in AT. destruct (v <? 0); [discriminate|]. destruct (peer v); discriminate.
    + rewrite znth_zupd_neq in E by auto. eauto.
Qed.

Lemma pace_step s m s' h0 p k : nstep H node peer s m = Some s' -> alive s -> (znth (n_pk s) p = None -> h0 = 0) ->
  pace h0 s p k -> pace h0 s' p (k + if concerns p s m then 1 else 0).
Proof.
  intros ST AL H0 P. pose proof AL as (A & B). unfold pace in *. destruct m as [i eth data|p1 now dn|i m|p1]; cbn [nstep] in ST; cbn [concerns].
  - destruct (node i); [|discriminate]. injection ST as <-. cbn [n_pk n_node]. rewrite Z.add_0_r. destruct (znth (n_pk s ++ _) p) as [q|] eqn:E.
    + destruct (znth_last _ _ _ _ E) as [Z|(Z & ->)]; rewrite Z in P; [exact P|]. cbn [q_at q_hops]. specialize (H0 Z). lia.
    + destruct (znth (n_pk s) p) as [q|] eqn:E1; [rewrite (znth_app_l _ _ _ _ E1) in E; discriminate|exact P].
  - destruct (znth (n_pk s) p1) as [q|] eqn:EP; [|discriminate]. destruct (q_at q) as [i|i n|i v|i] eqn:EA; try discriminate.
    destruct (pstep (H i) (n_node s i) (Arrive now dn (q_eth q) (q_data q))) as [[w ev| |]|] eqn:PS; try discriminate. injection ST as <-. cbn [n_pk n_node].
    destruct (Z.eqb_spec p1 p) as [->|N].
    + rewrite EP, EA in P. rewrite znth_zupd_eq by (eapply znth_some_range; eauto). cbn [placed q_at q_hops].
      exists (handler (H i) now dn (q_eth q) (q_data q)), 11%nat. rewrite node_eq. split; [apply (pstep_arrive _ _ _ _ _ _ _ _ PS)|]. split; [apply soon_handler|lia].
    + rewrite znth_zupd_neq by auto. rewrite Z.add_0_r. destruct (znth (n_pk s) p) as [q'|]; [|exact P]. destruct (q_at q') as [j|j n|j v|j]; try exact P.
      destruct P as (x & m & EX & S & K). destruct (node_step _ _ _ _ _ PS AL) as (_ & C2). destruct (C2 _ _ _ EX) as (x' & EX' & [(_ & ->)|(_ & X & _)]); [eauto|discriminate].
  - assert (NA : exists w ev, pstep (H i) (n_node s i) m = Some (Cont w ev) /\ s' = mkNet (set_node (n_node s) i w) (n_pk s)).
    { destruct m; try discriminate; (destruct (node i); [|discriminate]); (destruct (pstep (H i) (n_node s i) _) as [[w ev| |]|]; try discriminate); injection ST as <-; eauto. }
    destruct NA as (w & ev & PS & ->). clear ST. cbn [n_pk n_node]. destruct (node_step _ _ _ _ _ PS AL) as (_ & C2).
    destruct (znth (n_pk s) p) as [q|] eqn:EP; [|destruct m; lia].
    destruct (q_at q) as [j|j n|j v|j] eqn:EA; try (destruct m; rewrite Z.add_0_r; exact P).
    destruct P as (x & k1 & EX & S & K). destruct (C2 _ _ _ EX) as (x' & EX' & C).
    assert (CC : (match m with PacketStep n0 => if (j =? i) && (n =? n0) then 1 else 0 | _ => 0 end) = if match m with PacketStep n0 => (j =? i) && (n =? n0) | _ => false end then 1 else 0) by (destruct m; reflexivity).
    destruct C as [(NC & ->)|(-> & -> & l & f & ev' & s1 & -> & EF)].
    + exists x, k1. split; [exact EX'|]. split; [exact S|]. destruct m as [| | |n0|]; try lia. destruct ((j =? i) && (n =? n0)) eqn:EE; [|lia]. exfalso. apply NC. split; [lia|]. f_equal. lia.
    + destruct (soon_step _ _ _ _ _ _ _ S EF) as (k2 & -> & S2). exists x', k2. split; [exact EX'|]. split; [exact S2|]. rewrite !Z.eqb_refl. cbn [andb]. lia.
  - destruct (znth (n_pk s) p1) as [q|] eqn:EP; [|discriminate]. destruct (q_at q) as [i|i n|i v|i] eqn:EA; try discriminate.
    destruct (znth (w_pk (n_node s i)) n) as [[[v|r]|l f]|] eqn:EN; try discriminate. injection ST as <-. cbn [n_pk n_node].
    destruct (Z.eqb_spec p1 p) as [->|N].
    + rewrite EP, EA in P. destruct P as (x & m & EX & S & K). rewrite znth_zupd_eq by (eapply znth_some_range; eauto). unfold route.
      destruct (v <? 0); [cbn [placed q_at q_hops]; lia|]. destruct (peer v); cbn [placed q_at q_hops]; lia.
    + rewrite znth_zupd_neq by auto. rewrite Z.add_0_r. exact P.
Qed.

Lemma work_pace env p s0 s k h0 : work H node peer env p s0 s k -> alive s0 -> (znth (n_pk s0) p = None -> h0 = 0) ->
  (forall s m s', nstep H node peer s m = Some s' -> znth (n_pk s) p <> None -> znth (n_pk s') p <> None) ->
  pace h0 s0 p 0 -> alive s /\ pace h0 s p k.
Proof.
  intros W AL H0 MONO P0. assert (H1 : forall s k, work H node peer env p s0 s k -> znth (n_pk s) p = None -> h0 = 0).
  { clear - H0 MONO. intros s k W. induction W as [E|s k m s' W IH ST E]; intros N; [auto|]. apply IH. destruct (znth (n_pk s) p) eqn:EQ; [|reflexivity].
    exfalso. apply (MONO _ _ _ ST); [congruence|exact N]. }
  induction W as [E|s k m s' W IH ST E]; [auto|]. destruct IH as (A & P). split; [eapply alive_step; eauto|]. eapply pace_step; eauto.
Qed.
Lemma nstep_keeps s m s' p : nstep H node peer s m = Some s' -> znth (n_pk s) p <> None -> znth (n_pk s') p <> None.
Proof.
  intros ST N. destruct (znth (n_pk s) p) as [q0|] eqn:E0; [|contradiction]. clear N.
  assert (U : forall a b, znth (zupd (n_pk s) a b) p <> None).
  { intros a b. destruct (Z.eq_dec a p) as [->|NE]; [rewrite znth_zupd_eq by (eapply znth_some_range; eauto); discriminate|rewrite znth_zupd_neq by auto; congruence]. }
  destruct m as [i eth data|p1 now dn|i m|p1]; cbn [nstep] in ST.
  - destruct (node i); [|discriminate]. injection ST as <-. cbn [n_pk]. rewrite (znth_app_l _ _ _ _ E0). discriminate.
  - destruct (znth (n_pk s) p1) as [q|] eqn:EP; [|discriminate]. destruct (q_at q) as [i|i n|i v|i] eqn:EA; try discriminate.
    destruct (pstep (H i) (n_node s i) _) as [[w ev| |]|]; try discriminate. injection ST as <-. apply U.
  - destruct m; try discriminate; (destruct (node i); [|discriminate]); (destruct (pstep (H i) (n_node s i) _) as [[w ev| |]|]; try discriminate); injection ST as <-; cbn [n_pk]; congruence.
  - destruct (znth (n_pk s) p1) as [q|] eqn:EP; [|discriminate]. destruct (q_at q) as [i|i n|i v|i] eqn:EA; try discriminate.
    destruct (znth (w_pk (n_node s i)) n) as [[[v|r]|l f]|]; try discriminate. injection ST as <-. apply U.
Qed.
Lemma nexec_alive env shm mem s : nexec H node peer env (nstart H shm mem) s -> alive s.
Proof. intros X. induction X as [E|s m s' X IH ST E]; [apply alive_start|eapply alive_step; eauto]. Qed.
Lemma work_exec env p s0 s k : work H node peer env p s0 s k -> nexec H node peer env s0 s.
Proof. intros W. induction W as [E|s k m s' W IH ST E]; [apply nx_start; exact E|eapply nx_step; eauto]. Qed.

Lemma moves_hops env env' shm mem s0 s p k q : nexec H node peer env (nstart H shm mem) s0 -> work H node peer env' p s0 s k -> znth (n_pk s) p = Some q ->
  k <= 13 * (q_hops q - match znth (n_pk s0) p with Some q0 => q_hops q0 | None => 0 end + 1).
Proof.
  intros X W EQ. pose proof (nexec_alive _ _ _ _ X) as AL. set (h0 := match znth (n_pk s0) p with Some q0 => q_hops q0 | None => 0 end).
  assert (P0 : pace h0 s0 p 0).
  { unfold pace, h0. destruct (znth (n_pk s0) p) as [q0|] eqn:E0; [|reflexivity]. destruct (q_at q0) as [i|i n|i v|i] eqn:EA; try lia.
    destruct AL as (A & B). destruct (B _ _ _ _ E0 EA) as (x & EX). exists x, 11%nat. split; [exact EX|]. split; [eauto|lia]. }
  assert (H0 : znth (n_pk s0) p = None -> h0 = 0) by (intros E; unfold h0; rewrite E; reflexivity).
  destruct (work_pace _ _ _ _ _ _ W AL H0 (fun s m s' => nstep_keeps s m s' p) P0) as (_ & P). unfold pace in P. rewrite EQ in P.
  destruct (q_at q); try lia. destruct P as (x & m & _ & _ & K). lia.
Qed.

(** A packet that has not left can make a move, unless its load-balancer fails. *)
Lemma goes_on env shm mem s p q : (forall v j, peer v = Some j -> node j = true) -> nexec H node peer env (nstart H shm mem) s -> znth (n_pk s) p = Some q ->
  done q \/ fails H s q \/ exists m s', concerns p s m = true /\ nstep H node peer s m = Some s'.
Proof.
  intros PEER X EQ. pose proof (nexec_alive _ _ _ _ X) as AL.
  assert (NODE : forall p q i, znth (n_pk s) p = Some q -> (q_at q = Wire i \/ exists n, q_at q = Inside i n) -> node i = true).
  { clear - X PEER. induction X as [E|s m s' X IH ST E]; intros p q i EQ AT.
    - cbn [nstart n_pk] in EQ. unfold znth in EQ. destruct (p <? 0); [discriminate|]. destruct (Z.to_nat p); discriminate.
    - destruct m as [i1 eth data|p1 now dn|i1 m|p1]; cbn [nstep] in ST.
      + destruct (node i1) eqn:EN; [|discriminate]. injection ST as <-. cbn [n_pk] in EQ. destruct (znth_last _ _ _ _ EQ) as [Z|(_ & ->)]; [eauto|]. cbn [q_at] in AT.
        destruct AT as [AT|(n & AT)]; [injection AT as <-; exact EN|discriminate].
      + destruct (znth (n_pk s) p1) as [q1|] eqn:EP; [|discriminate]. destruct (q_at q1) as [i2|i2 n|i2 v|i2] eqn:EA; try discriminate.
        destruct (pstep (H i2) (n_node s i2) _) as [[w ev| |]|]; try discriminate. injection ST as <-. cbn [n_pk] in EQ. destruct (Z.eq_dec p1 p) as [->|N].
        * rewrite znth_zupd_eq in EQ by (eapply znth_some_range; eauto). injection EQ as <-. cbn [placed q_at] in AT. destruct AT as [AT|(n & AT)]; [discriminate|]. injection AT as <- _. eauto.
        * rewrite znth_zupd_neq in EQ by auto. eauto.
      + destruct m; try discriminate; (destruct (node i1); [|discriminate]); (destruct (pstep (H i1) (n_node s i1) _) as [[w ev| |]|]; try discriminate); injection ST as <-; cbn [n_pk] in EQ; eauto.
      + destruct (znth (n_pk s) p1) as [q1|] eqn:EP; [|discriminate]. destruct (q_at q1) as [i2|i2 n|i2 v|i2] eqn:EA; try discriminate.
        destruct (znth (w_pk (n_node s i2)) n) as [[[v|r]|l f]|]; try discriminate. injection ST as <-. cbn [n_pk] in EQ. destruct (Z.eq_dec p1 p) as [->|N].
        * rewrite znth_zupd_eq in EQ by (eapply znth_some_range; eauto). injection EQ as <-. unfold route in AT. destruct (v <? 0); [destruct AT as [AT|(n0 & AT)]; discriminate|].
          destruct (peer v) as [j|] eqn:EV; (destruct AT as [AT|(n0 & AT)]; cbn [placed q_at] in AT; try discriminate). injection AT as <-. eauto.
        * rewrite znth_zupd_neq in EQ by auto. eauto. }
  destruct AL as (A & B). destruct (q_at q) as [i|i n|i v|i] eqn:EA.
  - right. right. exists (NTake p 0 false).
    assert (AR : exists w ev, pstep (H i) (n_node s i) (Arrive 0 false (q_eth q) (q_data q)) = Some (Cont w ev)) by (destruct (H i); cbn; eauto).
    destruct AR as (w & ev & AR). eexists. split; [cbn [concerns]; apply Z.eqb_refl|]. cbn [nstep]. rewrite EQ, EA, AR. reflexivity.
  - destruct (B _ _ _ _ EQ EA) as (x & EX). pose proof (A _ _ _ EX) as S. right. destruct x as [[v|r]|l f].
    + right. exists (NLeave p). eexists. split; [cbn [concerns]; apply Z.eqb_refl|]. cbn [nstep]. rewrite EQ, EA, EX. reflexivity.
    + destruct S.
    + assert (C : exists r, pstep (H i) (n_node s i) (PacketStep n) = Some r).
      { destruct (H i) as [h|g]; cbn [pstep plainMove step lstep lw_st lw_pk]; rewrite EX; [eauto|]. destruct (f (w_st (n_node s i))); eauto. }
      destruct C as ([w ev| |] & C).
      * right. exists (NStep i (PacketStep n)). eexists. split; [cbn [concerns]; rewrite EQ, EA, !Z.eqb_refl; reflexivity|]. cbn [nstep].
        rewrite (NODE p q i EQ (or_intror (ex_intro _ n EA))), C. reflexivity.
      * left. exists i, n. auto.
      * left. exists i, n. auto.
  - left. exists i. right. eauto.
  - left. exists i. left. auto.
Qed.
End net.

(** The number of moves of a packet *)
Lemma tier_moves H node peer enc T : tier_setup H node peer enc -> forall shm mem s0 s p k,
  nexec H node peer (tier_marks H node peer) (nstart H shm mem) s0 -> work H node peer (tier_env H node peer T) p s0 s k ->
  k <= match znth (n_pk s0) p with Some _ => 39 | None => 26 end.
Proof.
  intros SU shm mem s0 s p k X W. pose proof (work_exec _ _ _ _ _ _ _ _ W) as X2.
  destruct (znth (n_pk s) p) as [q|] eqn:EQ.
  - pose proof (moves_hops _ _ _ _ _ _ _ _ _ _ _ _ X W EQ) as K. destruct (znth (n_pk s0) p) as [q0|] eqn:E0.
    + destruct (tier_settles H node peer enc T SU shm mem s0 s X X2 p q q0 EQ E0) as (_ & _ & HP). lia.
    + destruct (tier_hops H node peer enc T SU shm mem s0 s X X2 p q EQ E0) as [HP|(HP & _)]; lia.
  - assert (N : k = 0 /\ znth (n_pk s0) p = None).
    { clear X X2. induction W as [E|s k m s' W IH ST E]; [auto|]. destruct (znth (n_pk s) p) as [q|] eqn:E1; [exfalso; apply (nstep_keeps _ _ _ _ _ _ p ST); congruence|].
      destruct (IH eq_refl) as (-> & N). split; [|exact N]. destruct (concerns p s m) eqn:C; [|reflexivity]. exfalso.
      destruct m as [i1 eth data|p1 now dn|i1 m|p1]; cbn [concerns] in C; try discriminate.
      - apply Z.eqb_eq in C. subst p1. cbn [nstep] in ST. rewrite E1 in ST. discriminate.
      - destruct m; try discriminate. rewrite E1 in C. discriminate.
      - apply Z.eqb_eq in C. subst p1. cbn [nstep] in ST. rewrite E1 in ST. discriminate. }
    destruct N as (-> & ->). lia.
Qed.

(** ** Left alone with its handler, a packet leaves. *)
Lemma pstep_mild c w n w' ev : pstep c w (PacketStep n) = Some (Cont w' ev) -> (forall n p, znth (w_pk w) n = Some p -> soon 11 p) -> mild (w_st w) (w_st w').
Proof.
  intros ST A. destruct c as [h|g]; cbn [pstep plainMove step lstep lw_st lw_pk] in ST.
  - destruct (znth (w_pk w) n) as [[r|l f]|] eqn:EJ; try discriminate. destruct (f (w_st w)) as [ev' s' p'| |] eqn:EF; try discriminate. injection ST as <- <-. cbn [w_st]. eapply soon_mild; eauto.
  - destruct (znth (w_pk w) n) as [[r|l f]|] eqn:EJ; try discriminate. destruct (f (w_st w)) as [ev' s' p'| |] eqn:EF; try discriminate. injection ST as <- <-. cbn [w_st]. eapply soon_mild; eauto.
Qed.
Lemma arrive_same c w now dn eth data w' ev : pstep c w (Arrive now dn eth data) = Some (Cont w' ev) -> w_st w' = w_st w.
Proof. destruct c as [h|g]; cbn [pstep plainMove step lstep lw_st lw_pk]; intros E; injection E as <- <-; reflexivity. Qed.
Lemma env_mild H node peer T s s' : (forall i, mild (w_st (n_node s i)) (w_st (n_node s' i))) -> tier_env H node peer T s -> tier_env H node peer T s'.
Proof.
  intros M (E1 & E2). split.
  - intros i N. destruct (M i) as (ME & MD). destruct (E1 i N) as (A & B). rewrite ME. split; [exact A|]. intros r TR. apply B. unfold targets in *. destruct (H i) as [h|g]; [|exact TR].
    destruct TR as (a & o & D & R). destruct (MD _ _ D) as (o0 & D0 & R0). exists a, o0. split; [exact D0|congruence].
  - intros i N r o TI. destruct (M i) as (ME & _). rewrite ME. exact (E2 i N r o TI).
Qed.
Lemma own_env H node peer T p s m s' : alive s -> concerns p s m = true -> nstep H node peer s m = Some s' -> tier_env H node peer T s -> tier_env H node peer T s'.
Proof.
  intros (A & B) C ST. apply env_mild. destruct m as [i eth data|p1 now dn|i m|p1]; cbn [concerns] in C; cbn [nstep] in ST; try discriminate.
  - destruct (znth (n_pk s) p1) as [q|] eqn:EP; [|discriminate]. destruct (q_at q) as [i|i n|i v|i] eqn:EA; try discriminate.
    destruct (pstep (H i) (n_node s i) (Arrive now dn (q_eth q) (q_data q))) as [[w ev| |]|] eqn:PS; try discriminate. injection ST as <-. cbn [n_node]. intros j.
    destruct (Z.eq_dec j i) as [->|N]; [rewrite node_eq, (arrive_same _ _ _ _ _ _ _ _ PS)|rewrite node_neq by auto]; apply mild_refl.
  - destruct m as [| | |n|]; try discriminate. destruct (node i); [|discriminate]. destruct (pstep (H i) (n_node s i) (PacketStep n)) as [[w ev| |]|] eqn:PS; try discriminate. injection ST as <-.
    cbn [n_node]. intros j. destruct (Z.eq_dec j i) as [->|N]; [rewrite node_eq; eapply pstep_mild; eauto|rewrite node_neq by auto; apply mild_refl].
  - destruct (znth (n_pk s) p1) as [q|]; [|discriminate]. destruct (q_at q) as [i|i n|i v|i]; try discriminate.
    destruct (znth (w_pk (n_node s i)) n) as [[[v|r]|l f]|]; try discriminate. injection ST as <-. intros j. apply mild_refl.
Qed.
Lemma nexec_trans H node peer (env env' : net -> Prop) s0 s1 s : (forall s, env' s -> env s) -> nexec H node peer env s0 s1 -> nexec H node peer env' s1 s -> nexec H node peer env s0 s.
Proof. intros I X Y. induction Y as [E|s m s' Y IH ST E]; [exact X|]. eapply nx_step; eauto. Qed.
Lemma tier_leaves H node peer enc T : tier_setup H node peer enc -> forall shm mem s0 s p q,
  nexec H node peer (tier_marks H node peer) (nstart H shm mem) s0 -> nexec H node peer (tier_env H node peer T) s0 s -> znth (n_pk s) p = Some q ->
  exists s' q', alone H node peer p s s' /\ znth (n_pk s') p = Some q' /\ (done q' \/ fails H s' q').
Proof.
  intros SU shm mem s0 s p q X Y EQ.
  assert (ES : tier_env H node peer T s) by (inversion Y; auto).
  assert (X' : nexec H node peer (tier_marks H node peer) (nstart H shm mem) s) by (eapply nexec_trans; [|exact X|exact Y]; intros s1 (E & _); exact E).
  assert (G : forall f s1 k q1, (Z.to_nat (39 - k) <= f)%nat -> work H node peer (tier_env H node peer T) p s s1 k -> alone H node peer p s s1 -> znth (n_pk s1) p = Some q1 ->
    exists s' q', alone H node peer p s s' /\ znth (n_pk s') p = Some q' /\ (done q' \/ fails H s' q')).
  { assert (STEP : forall s1 k q1, work H node peer (tier_env H node peer T) p s s1 k -> alone H node peer p s s1 -> znth (n_pk s1) p = Some q1 ->
      (done q1 \/ fails H s1 q1) \/ exists s2 q2, work H node peer (tier_env H node peer T) p s s2 (k + 1) /\ alone H node peer p s s2 /\ znth (n_pk s2) p = Some q2).
    { intros s1 k q1 W AL E1. pose proof (work_exec _ _ _ _ _ _ _ _ W) as Y1.
      assert (X1 : nexec H node peer (tier_marks H node peer) (nstart H shm mem) s1) by (eapply nexec_trans; [|exact X'|exact Y1]; intros s2 (E & _); exact E).
      assert (T1 : tier_env H node peer T s1) by (inversion Y1; auto).
      destruct (goes_on H node peer _ shm mem s1 p q1 (fun v j PV => proj1 (ts_peer _ _ _ _ SU _ _ PV)) X1 E1) as [D|[F|(m & s2 & C & ST)]]; auto.
      right. assert (T2 : tier_env H node peer T s2) by (eapply own_env; eauto; eapply nexec_alive; eauto).
      destruct (znth (n_pk s2) p) as [q2|] eqn:E2; [|exfalso; apply (nstep_keeps _ _ _ _ _ _ p ST); congruence].
      exists s2, q2. split; [|split; [|exact E2]]; [|eapply al_step; eauto]. pose proof (wk_step _ _ _ _ _ _ _ _ _ _ W ST T2) as W2. rewrite C in W2. exact W2. }
    induction f as [|f IH]; intros s1 k q1 LE W AL E1; destruct (STEP _ _ _ W AL E1) as [D|(s2 & q2 & W2 & AL2 & E2)]; eauto.
    - exfalso. pose proof (tier_moves H node peer enc T SU shm mem s s2 p (k + 1) X' W2) as K. destruct (znth (n_pk s) p); lia.
    - pose proof (tier_moves H node peer enc T SU shm mem s s2 p (k + 1) X' W2) as K. eapply (IH s2 (k + 1)); eauto. destruct (znth (n_pk s) p); lia. }
  eapply (G 39%nat s 0 q); [lia|apply wk_start; exact ES|apply al_start|exact EQ].
Qed.

(** ** The moves of a packet in an example *)
Fixpoint count (p : Z) (s : net) (l : list nmove) : Z :=
  match l with
  | [] => 0
  | m :: r => (if concerns p s m then 1 else 0) + match nstep e_h two towards s m with Some s' => count p s' r | None => 0 end
  end.
Lemma nplay_work p s0 l : forall s s' k, work e_h two towards (tier_env e_h two towards (tab 2)) p s0 s k -> nplay true s l = Some s' ->
  work e_h two towards (tier_env e_h two towards (tab 2)) p s0 s' (k + count p s l).
Proof.
  induction l as [|m r IH]; intros s s' k W P; cbn [nplay count] in *; [injection P as <-; rewrite Z.add_0_r; exact W|].
  destruct (nstep _ _ _ s m) as [s1|] eqn:E; [|discriminate]. destruct (envb true s1) eqn:EB; [|discriminate]. rewrite Z.add_assoc. apply (IH s1); [|exact P].
  eapply wk_step; eauto. apply (envb_ok true s1 EB). reflexivity.
Qed.
