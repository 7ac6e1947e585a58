(** Fragments meet in one load-balancer, whichever they arrive at (C89): invariants of one
    load-balancer and of all packets. *)
From Coq Require Import String.
From Verif Require Import Base Lists IpKey_Model IpKey_Spec Maglev_Model Flow_Model Remote_Model FlowLb_Model FlowLb_Spec FlowLb_Proofs FlowLb4_Proofs Lb_Model Lb_Spec
  Lb_Proofs Lb2_Proofs Steer_Spec Steer_Proofs Steer2_Proofs Steer3_Proofs Tier_Model Tier_Spec Tier_Proofs.
From Verif Require Frag_Model Frag_Spec Frag2_Proofs FragVals_Proofs.

(** ** One load-balancer: the fragment table *)
Definition away (peer : Z -> option Z) (x : Z) : Prop := 0 <= x /\ peer x <> None.
Definition tmarks (peer : Z -> option Z) (h : hconf) (s : state) : Prop :=
  forall r o, h_tier h = Some (r, o) -> Forall (fun v => v < 0 \/ peer v <> None) (mactive (t_mem s r)).
Definition awaycalls (peer : Z -> option Z) (h : hconf) (enc now : Z) (done : bool) (eth : Z) (data : list Z) : calls :=
  mkC (h_frag h) now done (tmarks peer h)
    (fun x => forall d, frag_of enc eth data false d -> away peer x)
    (fun K => exists d, frag_of enc eth data true d /\ K = dkey d)
    (fun K => exists d, frag_of enc eth data false d /\ K = dkey d).
Lemma away_conditions peer h enc now done eth data : conditions (awaycalls peer h enc now done eth data) h enc eth data (fun _ => True).
Proof.
  constructor; cbn [awaycalls c_first c_other c_quiet]; eauto.
  - intros k local b d F S D L. unfold tier. destruct (h_tier h) as [[r own]|] eqn:ET; [|apply L; auto].
    apply fok_read.
    + intros s r' i _ _ _ N. destruct (Z.leb_spec 0 i); [lia|]. apply L; auto.
    + intros s r' i s' r'' fw _ _ _ _ W R ZA. destruct (Z.leb_spec 0 fw) as [P|P]; [|apply L; auto]. destruct (Z.eqb_spec fw own) as [O|O]; [apply L; auto|].
      intros d' _. split; [auto|]. injection R as <-. pose proof (W _ _ ET) as X. rewrite Forall_forall in X. destruct (X _ (znth_In _ _ _ _ ZA)); [lia|auto].
  - intros x H _ d F. destruct (H _ _ F); discriminate.
  - intros x H d F. destruct (H _ _ F).
Qed.
Definition claim (enc : Z) (pk : list prog) (arr : list (Z * list Z)) (eth : Z) (data : list Z) (x : Z) : Prop :=
  forall d, frag_of enc eth data false d -> x = -1 \/ steered_to enc pk arr d x.
Definition told (peer : Z -> option Z) (h : hconf) (enc : Z) (pk : list prog) (arr : list (Z * list Z)) (eth : Z) (data : list Z) (p : prog) : Prop :=
  (exists now done, fok (awaycalls peer h enc now done eth data) p) \/ exists x, p = Ret (Verdict x) /\ claim enc pk arr eth data x.
Definition Q (peer : Z -> option Z) (h : hconf) (enc : Z) (ft : Frag_Model.sys) (pk : list prog) (arr : list (Z * list Z)) : Prop :=
  (exists tr, Frag_Spec.exec (h_frag h) (Frag_Model.start (h_frag h) 1) tr (Frag_Model.mkWorld ft [Frag_Model.Idle]) /\
     forall K v, In (Frag_Model.Accepted K v) tr -> exists d, dkey d = K /\ steered_to enc pk arr d v) /\
  zlen pk = zlen arr /\
  forall i p eth data, znth pk i = Some p -> znth arr i = Some (eth, data) -> told peer h enc pk arr eth data p.
Lemma told_mono peer h enc pk arr pk' arr' eth data p : (forall d v, steered_to enc pk arr d v -> steered_to enc pk' arr' d v) ->
  told peer h enc pk arr eth data p -> told peer h enc pk' arr' eth data p.
Proof.
  intros M [F|(x & -> & C)]; [left; auto|]. right. exists x. split; auto. intros d D. destruct (C _ D) as [?|?]; auto.
Qed.
Lemma Q_arrive peer h enc ft pk arr p now done eth data : Q peer h enc ft pk arr -> fok (awaycalls peer h enc now done eth data) p -> Q peer h enc ft (pk ++ [p]) (arr ++ [(eth, data)]).
Proof.
  intros ((tr & X & A) & L & P) F.
  assert (M : forall d v, steered_to enc pk arr d v -> steered_to enc (pk ++ [p]) (arr ++ [(eth, data)]) d v).
  { intros d v (j & e & dt & Y1 & Y2 & Y3). exists j, e, dt. split; [apply znth_app_l; auto|]. split; auto. apply znth_app_l; auto. }
  split; [exists tr; split; auto; intros K v Y; destruct (A _ _ Y) as (d & E & S); eauto|].
  split; [unfold zlen in *; rewrite !app_length; cbn; lia|]. intros i q e dt Y1 Y2.
  destruct (znth_app2 _ _ _ _ Y1) as [Z1|(-> & ->)].
  - destruct (znth_app2 _ _ _ _ Y2) as [Z2|(-> & _)]; [|exfalso; apply znth_some_range in Z1; lia]. eapply told_mono; eauto.
  - destruct (znth_app2 _ _ _ _ Y2) as [Z2|(_ & Z2)]; [exfalso; apply znth_some_range in Z2; lia|]. injection Z2 as -> ->. left. eauto.
Qed.
Lemma Q_step peer h enc s pk arr i l f ev s' p' : Frag_Spec.conf_ok (h_frag h) -> tmarks peer h s -> Q peer h enc (t_ft s) pk arr -> znth pk i = Some (Act l f) ->
  f s = Next ev s' p' -> Q peer h enc (t_ft s') (zupd pk i p') arr.
Proof.
  intros G TT ((tr & X & A) & L & P) E1 E2. assert (RI : 0 <= i < zlen pk) by (eapply znth_some_range; eauto).
  assert (M : forall d v, steered_to enc pk arr d v -> steered_to enc (zupd pk i p') arr d v).
  { intros d v (j & e & dt & Y1 & Y2 & Y3). exists j, e, dt. split; [auto|]. split; auto. rewrite znth_zupd_neq; auto. intros ->. congruence. }
  assert (LL : zlen (zupd pk i p') = zlen arr) by (unfold zlen in *; rewrite zupd_length; auto).
  assert (REST : forall eth data, znth arr i = Some (eth, data) -> told peer h enc (zupd pk i p') arr eth data p' ->
     forall j p eth data, znth (zupd pk i p') j = Some p -> znth arr j = Some (eth, data) -> told peer h enc (zupd pk i p') arr eth data p).
  { intros e dt Y0 H j p e' dt' Y1 Y2. destruct (Z.eq_dec i j) as [<-|N].
    - rewrite znth_zupd_eq in Y1 by auto. assert (p = p') as -> by congruence. assert (e' = e /\ dt' = dt) as (-> & ->) by (split; congruence). exact H.
    - rewrite znth_zupd_neq in Y1 by auto. eapply told_mono; eauto. }
  destruct (znth arr i) as [[eth data]|] eqn:EA; [|exfalso; apply znth_none_range in EA; lia].
  specialize (REST _ _ eq_refl). destruct (P _ _ _ _ E1 EA) as [(now & done & F)|(x & Y & _)]; [|discriminate].
  specialize (F s TT). rewrite E2 in F. destruct F as (_ & [(ET & F)|F]).
  - rewrite ET. split; [exists tr; split; auto; intros K v Y; destruct (A _ _ Y) as (d & E & S); eauto|]. split; auto. apply REST. left. eauto.
  - destruct F as [(K & v & ob & rc & val & (d & FD & ->) & E & R & ->)|(K & dat & ob & rc & val & x & (d & FD & ->) & E & R & -> & RX)];
      cbn [awaycalls c_conf c_time c_done] in E.
    + destruct (call_facts _ _ _ _ _ _ E) as (F1 & F2 & F3). split; [|split; auto].
      * exists (tr ++ ob). split; [apply F3; auto|]. intros K v' Y. apply in_app_or in Y. destruct Y as [Y|Y].
        -- destruct (A _ _ Y) as (d' & E' & S). eauto.
        -- destruct (F2 _ _ Y) as ((n & w & Y1) & Y2). injection Y1 as <- <- <- <-. exists d. split; auto. exists i, eth, data. split; auto. split; auto.
           destruct (retOf_in _ _ _ R) as (k & RI'). rewrite (Y2 _ _ _ RI'). rewrite znth_zupd_eq by auto. reflexivity.
      * apply REST. right. eexists. split; [reflexivity|]. intros d' FD'. destruct (frag_unique _ _ _ _ _ _ _ FD FD') as (B & <-). discriminate.
    + destruct (call_facts _ _ _ _ _ _ E) as (F1 & F2 & F3).
      assert (NA : forall k v, ~ In (Frag_Model.Accepted k v) ob) by (intros k v Y; destruct (F2 _ _ Y) as ((n & w & Y1) & _); discriminate).
      split; [|split; auto].
      * exists (tr ++ ob). split; [apply F3; auto|]. intros K v' Y. apply in_app_or in Y. destruct Y as [Y|Y]; [|destruct (NA _ _ Y)].
        destruct (A _ _ Y) as (d' & E' & S). eauto.
      * apply REST. right. exists x. split; auto.
        intros d' FD'. destruct (frag_unique _ _ _ _ _ _ _ FD FD') as (_ & ->).
        destruct RX as [(-> & ->)|(_ & ->)]; [|auto]. destruct (retOf_in _ _ _ R) as (k & RI'). rewrite (F1 _ _ _ RI') in RI'. cbn [Frag_Model.c_k] in RI'.
        apply in_split in RI'. destruct RI' as (o1 & o2 & RI').
        pose proof (Frag2_Proofs.returned_accepted (h_frag h) 1 (tr ++ ob) _ (tr ++ o1) (dkey d) x o2 G (F3 _ _ X) ltac:(rewrite RI', <- app_assoc; reflexivity)) as Y.
        apply in_app_or in Y. destruct Y as [Y|Y]; [|exfalso; apply (NA (dkey d) x); rewrite RI'; apply in_or_app; auto].
        destruct (A _ _ Y) as (d' & E' & S). right. destruct S as (j & e & dt & S1 & S2 & S3).
        assert (d' = d) as -> by (apply (dkey_inj _ _ _ _ _ _ _ _ _ _ S2 FD E')). apply M. exists j, e, dt. auto.
Qed.
(** What is known of a verdict *)
Lemma Q_verdict peer h enc ft pk arr n v eth data : Q peer h enc ft pk arr -> znth pk n = Some (Ret (Verdict v)) -> znth arr n = Some (eth, data) ->
  forall d, frag_of enc eth data false d -> v = -1 \/ away peer v \/ steered_to enc pk arr d v.
Proof.
  intros (_ & _ & P) E1 E2 d D. destruct (P _ _ _ _ E1 E2) as [(now & done & F)|(x & X & C)].
  - right. left. exact (F d D).
  - injection X as <-. destruct (C d D); auto.
Qed.

(** ** One load-balancer *)
Definition base (peer : Z -> option Z) (c : kind) (s : state) : Prop :=
  tmarks peer (opts c) s /\ forall r, targets c s r -> Forall (outside peer) (mactive (t_mem s r)).
Definition senv (peer : Z -> option Z) (c : kind) (T : mag) (s : state) : Prop := base peer c s /\ tier_table (opts c) T s.
(** What is known of a program, if nothing is known of the table of the tier *)
Notation loose peer c := (outc (outside peer) (base peer c) (fun _ => True)).
Definition ninv (peer : Z -> option Z) (c : kind) (w : world) (arr : list (Z * list Z)) : Prop :=
  Q peer (opts c) (encap c) (t_ft (w_st w)) (w_pk w) arr /\ keeps (w_flow w) /\ FragVals_Proofs.fvals (outside peer) (t_ft (w_st w)) /\
  forall n p, znth (w_pk w) n = Some p -> loose peer c p.
(** Nothing that was decided changes. *)
Definition grow (w w' : world) (a a' : list (Z * list Z)) : Prop :=
  (forall n r, znth (w_pk w) n = Some (Ret r) -> znth (w_pk w') n = Some (Ret r)) /\ (forall n x, znth a n = Some x -> znth a' n = Some x).
Definition taken (m : move) : list (Z * list Z) := match m with Arrive _ _ eth data => [(eth, data)] | _ => [] end.
(** A packet arrives *)
Definition handler (c : kind) : Z -> bool -> Z -> list Z -> prog := match c with Flow h => packet h | Plain g => lbPacket g end.
Lemma handler_fok peer c now done eth data : fok (awaycalls peer (opts c) (encap c) now done eth data) (handler c now done eth data).
Proof.
  destruct c as [h|g]; cbn [opts encap handler].
  - eapply packet_fok; [|apply away_conditions]. split; [|split]; reflexivity.
  - eapply lb_fok; [|apply away_conditions]. split; [|split]; reflexivity.
Qed.
Lemma handler_tier peer c (E : state -> Prop) (V : Z -> Prop) now done eth data : (forall v, outside peer v -> V v) -> (forall s, E s -> base peer c s) ->
  outside peer (h_nolb (opts c)) -> outside peer (h_notargets (opts c)) ->
  (forall rc k fi local, getHashKey (S (length data)) (encap c) eth data = Ok (Some (rc, k, fi)) -> Z.land rc 3 <> 0 ->
     outc (outside peer) E V local -> outc (outside peer) E V (tier (opts c) k local)) ->
  outc (outside peer) E V (handler c now done eth data).
Proof.
  intros A1 EB N1 N2 HT. assert (A2 : forall v, v < 0 -> outside peer v) by (intros v X; left; exact X).
  destruct c as [h|g]; cbn [opts encap handler] in *.
  - apply outc_packet; auto. intros s X a o D. apply EB in X. apply X. exists a, o. auto.
  - apply outc_lb; auto. intros s X. apply EB in X. apply X. reflexivity.
Qed.
Lemma handler_loose peer c now done eth data : outside peer (h_nolb (opts c)) -> outside peer (h_notargets (opts c)) -> loose peer c (handler c now done eth data).
Proof. intros N1 N2. apply handler_tier; auto. intros. apply outc_anytier; auto. Qed.
(** With the same table all the time *)
Definition vnew (peer : Z -> option Z) (c : kind) (T : mag) (eth : Z) (data : list Z) (v : Z) : Prop :=
  (forall b d, frag_of (encap c) eth data b d -> tmark (opts c) T d = Some v \/ tmark (opts c) T d = None /\ outside peer v) /\
  ((forall b d, ~ frag_of (encap c) eth data b d) -> outside peer v).
Notation strict peer c T eth data := (outc (outside peer) (senv peer c T) (vnew peer c T eth data)).
Lemma handler_strict peer c T now done eth data : outside peer (h_nolb (opts c)) -> outside peer (h_notargets (opts c)) -> strict peer c T eth data (handler c now done eth data).
Proof.
  intros N1 N2.
  assert (K : (forall b d, frag_of (encap c) eth data b d -> tmark (opts c) T d = None) -> strict peer c T eth data (handler c now done eth data)).
  { intros Z. apply handler_tier; auto.
    - intros v X. split; [intros b d D; right; eauto|auto].
    - intros s X. apply X.
    - intros rc k fi local EG N3 L. destruct (frag_some _ _ _ _ _ _ EG N3) as (b & d & F & S & D). apply outc_tier with (T := T) (d := d); auto.
      + intros s X. apply X.
      + intros v X. rewrite (Z b d F) in X. discriminate. }
  destruct (getHashKey (S (length data)) (encap c) eth data) as [[[[rc k] fi]|]| | |] eqn:EG;
    try (apply K; intros b d (rc' & k' & fi' & X & _); rewrite EG in X; discriminate).
  destruct (Z.eqb_spec (Z.land rc 3) 0) as [Z3|N3]; [apply K; intros b d D; destruct (frag_kind _ _ _ _ _ _ _ _ EG D) as (X & _); contradiction|].
  destruct (frag_some _ _ _ _ _ _ EG N3) as (b & d & F & S & D). destruct (tmark (opts c) T d) as [w|] eqn:TM.
  2: { apply K. intros b' d' F'. destruct (frag_unique _ _ _ _ _ _ _ F F') as (_ & <-). exact TM. }
  assert (VW : vnew peer c T eth data w).
  { split; [|intros NF; destruct (NF b d F)]. intros b' d' F'. destruct (frag_unique _ _ _ _ _ _ _ F F') as (_ & <-). auto. }
  apply Z.eqb_neq in N3.
  destruct c as [h|g]; cbn [opts encap handler] in *; [unfold packet|unfold lbPacket]; rewrite EG, N3;
    (apply outc_tier with (T := T) (d := d); auto; [intros s X; apply X|intros v X; congruence|congruence]).
Qed.
Lemma ninv_arrive peer c w arr now done eth data : outside peer (h_nolb (opts c)) -> outside peer (h_notargets (opts c)) ->
  ninv peer c w arr -> let w' := mkW (w_st w) (w_flow w) (w_pk w ++ [handler c now done eth data]) in
  ninv peer c w' (arr ++ [(eth, data)]) /\ grow w w' arr (arr ++ [(eth, data)]).
Proof.
  intros N1 N2 (JJ & KF & FV & OU) w'. split; [|split; intros; apply znth_app_l; auto]. split; [|split; [auto|split; [auto|]]]; cbn [w' w_st w_pk].
  - eapply Q_arrive; eauto. apply handler_fok.
  - intros n p Y1. destruct (znth_app2 _ _ _ _ Y1) as [Z1|(-> & ->)]; [eauto|]. apply handler_loose; auto.
Qed.
(** A packet thread makes a step *)
Lemma ninv_packet peer c w arr j l f ev s' p' : Frag_Spec.conf_ok (h_frag (opts c)) -> base peer c (w_st w) -> ninv peer c w arr ->
  znth (w_pk w) j = Some (Act l f) -> f (w_st w) = Next ev s' p' ->
  ninv peer c (mkW s' (w_flow w) (zupd (w_pk w) j p')) arr /\ grow w (mkW s' (w_flow w) (zupd (w_pk w) j p')) arr arr.
Proof.
  intros G EN (JJ & KF & FV & OU) EJ EF. assert (RJ : 0 <= j < zlen (w_pk w)) by (eapply znth_some_range; eauto).
  pose proof (OU _ _ EJ) as O1. cbn [outc] in O1. specialize (O1 _ EN FV). rewrite EF in O1. destruct O1 as (FV' & O1).
  split.
  - split; [eapply Q_step; eauto; apply EN|]. split; [auto|]. split; [exact FV'|]. cbn [w_pk]. intros n p Y1. destruct (Z.eq_dec j n) as [<-|NE].
    + rewrite znth_zupd_eq in Y1 by auto. assert (p = p') as -> by congruence. exact O1.
    + rewrite znth_zupd_neq in Y1 by auto. eapply OU; eauto.
  - split; auto. cbn [w_pk]. intros n r Y. rewrite znth_zupd_neq; auto. intros ->. congruence.
Qed.
Lemma ninv_step peer c w arr m w' ev : Frag_Spec.conf_ok (h_frag (opts c)) -> outside peer (h_nolb (opts c)) -> outside peer (h_notargets (opts c)) ->
  base peer c (w_st w) -> ninv peer c w arr -> pstep c w m = Some (Cont w' ev) -> ninv peer c w' (arr ++ taken m) /\ grow w w' arr (arr ++ taken m).
Proof.
  intros G N1 N2 EN I E. pose proof I as (JJ & KF & FV & OU). destruct c as [h|g]; cbn [pstep] in E.
  - destruct m as [now done eth data|cmd| |j|shm' mem']; cbn [step] in E; cbn [taken]; rewrite ?app_nil_r.
    + injection E as <- <-. apply (ninv_arrive peer (Flow h)); auto.
    + destruct (idle (w_flow w)); [|discriminate]. injection E as <- <-. split; [|split; auto]. split; [auto|]. split; [apply keeps_command|]. auto.
    + destruct (w_flow w) as [r|l f] eqn:EW; [discriminate|]. destruct (f (w_st w)) as [ev' s' p'| |] eqn:EF; try discriminate. injection E as <- <-.
      split; [|split; auto]. cbn [keeps] in KF. specialize (KF (w_st w)). rewrite EF in KF. destruct KF as (V1 & V2). unfold ninv. cbn [w_st w_pk w_flow]. rewrite V1. auto.
    + destruct (znth (w_pk w) j) as [[r|l f]|] eqn:EJ; try discriminate. destruct (f (w_st w)) as [ev' s' p'| |] eqn:EF; try discriminate. injection E as <- <-.
      eapply ninv_packet; eauto.
    + injection E as <- <-. split; [|split; auto]. split; [auto|]. auto.
  - destruct m as [now done eth data|cmd| |j|shm' mem']; cbn [plainMove lstep lw_st lw_pk] in E; cbn [taken]; rewrite ?app_nil_r; try discriminate.
    + injection E as <- <-. apply (ninv_arrive peer (Plain g)); auto.
    + destruct (znth (w_pk w) j) as [[r|l f]|] eqn:EJ; try discriminate. destruct (f (w_st w)) as [ev' s' p'| |] eqn:EF; try discriminate. injection E as <- <-.
      eapply ninv_packet; eauto.
    + injection E as <- <-. split; [|split; auto]. split; [auto|]. auto.
Qed.
Lemma ninv_start peer c shm mem : ninv peer c (pstart c shm mem) [].
Proof.
  assert (N : forall A (x : A) n, znth [] n = Some x -> False) by (intros A x n X; unfold znth in X; destruct (n <? 0); [discriminate|]; destruct (Z.to_nat n); discriminate).
  destruct c as [h|g]; (split; [|split; [exact I|split]]).
  1, 4: split; [exists []; split; [constructor|intros K v []]|]; split; [reflexivity|]; intros i p eth data X; destruct (N _ _ _ X).
  1, 3: intros o b [].
  all: intros n p X; destruct (N _ _ _ X).
Qed.
