(** All fragments of a datagram get the same decision (C13): packets one after the other. *)
From Verif Require Import Base Lists IpKey_Model IpKey_Spec Maglev_Model Flow_Model FlowLb_Model FlowLb_Spec FlowLb4_Proofs Lb_Model Lb_Spec
  Lb_Proofs Steer_Spec Steer_Proofs.
From Verif Require Frag_Model Frag_Spec Frag_Proofs Frag3_Proofs.

(** What a packet did with the fragment table *)
Definition made (C : calls) (ft ft' : Frag_Model.sys) (x : Z) : Prop :=
  (exists K v ob rc val, c_first C K /\ Frag_Model.call_op (c_conf C) ft (Frag_Model.CFirst (c_time C) K v true) (c_done C) = Ok (ft', ob) /\
     retOf ob = Some (rc, val) /\ x = (if rc =? 0 then v else -1)) \/
  (exists K data ob rc val, c_other C K /\ Frag_Model.call_op (c_conf C) ft (Frag_Model.CStore (c_time C) K data) (c_done C) = Ok (ft', ob) /\
     retOf ob = Some (rc, val) /\ (rc = 0 /\ val = Some x \/ rc <> 0 /\ x = -1)).
Lemma fcall_made C s s' p : fcall C s s' p -> exists x, p = Ret (Verdict x) /\ made C (t_ft s) (t_ft s') x.
Proof.
  intros [(K & v & ob & rc & val & A & B & D & E)|(K & data & ob & rc & val & x & A & B & D & E & F)].
  - exists (if rc =? 0 then v else -1). split; auto. left. exists K, v, ob, rc, val. auto.
  - exists x. split; auto. right. exists K, data, ob, rc, val. auto.
Qed.
Lemma fok_run C : (forall s s', t_mem s' = t_mem s -> c_state C s -> c_state C s') ->
  (forall p s v s' ev, fok C p -> c_state C s -> runp p s = Some (Verdict v, s', ev) ->
     t_ft s' = t_ft s /\ c_quiet C v \/ made C (t_ft s) (t_ft s') v) /\
  (forall x, match x with
     | Next _ s p => forall v s' ev, fok C p -> c_state C s -> runp p s = Some (Verdict v, s', ev) ->
        t_ft s' = t_ft s /\ c_quiet C v \/ made C (t_ft s) (t_ft s') v
     | _ => True end).
Proof.
  intros ST. apply prog_result_ind; auto.
  - intros r s v s' ev F W H. cbn [runp] in H. assert (r = Verdict v /\ s' = s) as (-> & ->) by (split; congruence). left. auto.
  - intros l f IH s v s' ev F W H. cbn [runp] in H. cbn [fok] in F. specialize (F s W). specialize (IH s). destruct (f s) as [e1 s1 p1| |]; try discriminate.
    cbn [runr] in H. destruct (runp p1 s1) as [[[r1 s2] e2]|] eqn:E1; [|discriminate]. assert (r1 = Verdict v /\ s2 = s') as (-> & ->) by (split; congruence).
    cbn [fokr] in F. destruct F as (M & [(T & F)|F]).
    + rewrite <- T. apply (IH v s' e2); auto. apply (ST s s1); auto.
    + destruct (fcall_made _ _ _ _ F) as (x & -> & X). cbn [runp] in E1. assert (x = v /\ s1 = s') as (-> & ->) by (split; congruence). auto.
  - intros _ s p IH v s' ev. apply IH.
Qed.

(** ** A tier whose table does not change *)
Definition tmark (h : hconf) (T : mag) (d : dgram) : option Z :=
  match h_tier h with
  | None => None
  | Some (r, own) => match table_mark T (djb2 (d_src d ++ d_dst d)) with Some fw => if fw =? own then None else Some fw | None => None end
  end.
Definition marks (h : hconf) : list Z := [-1; h_notargets h; h_nolb h].
Definition seqcalls (h : hconf) (T : mag) (enc now : Z) (done : bool) (eth : Z) (data : list Z) : calls :=
  mkC (h_frag h) now done (tier_table h T)
    (fun x => forall b d, frag_of enc eth data b d -> tmark h T d = Some x \/ b = true /\ tmark h T d = None /\ In x (marks h))
    (fun K => exists d, frag_of enc eth data true d /\ tmark h T d = None /\ K = dkey d)
    (fun K => exists d, frag_of enc eth data false d /\ tmark h T d = None /\ K = dkey d).
Lemma seq_conditions h T enc now done eth data :
  conditions (seqcalls h T enc now done eth data) h enc eth data (fun d => tmark h T d = None).
Proof.
  constructor.
  - intros k local b d F S D L. unfold tier. destruct (h_tier h) as [[r own]|] eqn:ET; [|apply L; unfold tmark; rewrite ET; auto].
    assert (Q : forall fw, table_mark T (djb2 (d_src d ++ d_dst d)) = (if fw <? 0 then None else Some fw) ->
      fok (seqcalls h T enc now done eth data) (if (0 <=? fw) && negb (fw =? own) then Ret (Verdict fw) else local)).
    { intros fw TM. destruct (Z.ltb_spec fw 0) as [N|N].
      - destruct (Z.leb_spec 0 fw); [lia|]. apply L. unfold tmark. rewrite ET, TM. auto.
      - destruct (Z.leb_spec 0 fw); [|lia]. cbn [andb]. destruct (fw =? own) eqn:EO; cbn [negb]; [apply L; unfold tmark; rewrite ET, TM, EO; auto|].
        intros b' d' F'. left. destruct (frag_unique _ _ _ _ _ _ _ F F') as (-> & ->). unfold tmark. rewrite ET, TM, EO. auto. }
    assert (HK : hashKeyAddresses k = djb2 (d_src d ++ d_dst d)) by (unfold hashKeyAddresses; rewrite S, D; auto).
    apply fok_read.
    + intros s r' i W R Z N. injection R as <-. cbn [seqcalls c_state] in W. rewrite (W _ _ ET) in Z. apply Q. unfold table_mark. rewrite <- HK, Z.
      destruct (Z.ltb_spec i 0); [auto|lia].
    + intros s r' i s' r'' fw W R Z P W' R' A. injection R as <-. injection R' as <-. cbn [seqcalls c_state] in W, W'. rewrite (W _ _ ET) in Z.
      rewrite (W' _ _ ET) in A. apply Q. unfold table_mark. rewrite <- HK, Z. destruct (Z.ltb_spec i 0); [lia|]. rewrite A. auto.
  - intros d F N. exists d. auto.
  - intros d F N. exists d. auto.
  - intros x H X b d F. destruct (H b d F) as (-> & N). right. auto.
  - intros x H b d F. destruct (H b d F).
Qed.

(** ** The calls of a sequence of packets *)
Inductive logged (h : hconf) (T : mag) (enc : Z) : Frag_Model.sys -> list arrival -> list Z -> list (Frag_Model.call * bool) -> Frag_Model.sys -> Prop :=
| lg_nil : forall ft, logged h T enc ft [] [] [] ft
| lg_quiet : forall ft now done eth data x r vs cl ft', c_quiet (seqcalls h T enc now done eth data) x -> logged h T enc ft r vs cl ft' ->
    logged h T enc ft ((now, done, eth, data) :: r) (x :: vs) cl ft'
| lg_first : forall ft now done eth data d v ob rc val ft1 r vs cl ft', frag_of enc eth data true d -> tmark h T d = None ->
    Frag_Model.call_op (h_frag h) ft (Frag_Model.CFirst now (dkey d) v true) done = Ok (ft1, ob) -> retOf ob = Some (rc, val) ->
    logged h T enc ft1 r vs cl ft' ->
    logged h T enc ft ((now, done, eth, data) :: r) ((if rc =? 0 then v else -1) :: vs) ((Frag_Model.CFirst now (dkey d) v true, done) :: cl) ft'
| lg_other : forall ft now done eth data d dat ob rc val x ft1 r vs cl ft', frag_of enc eth data false d -> tmark h T d = None ->
    Frag_Model.call_op (h_frag h) ft (Frag_Model.CStore now (dkey d) dat) done = Ok (ft1, ob) -> retOf ob = Some (rc, val) ->
    (rc = 0 /\ val = Some x \/ rc <> 0 /\ x = -1) -> logged h T enc ft1 r vs cl ft' ->
    logged h T enc ft ((now, done, eth, data) :: r) (x :: vs) ((Frag_Model.CStore now (dkey d) dat, done) :: cl) ft'.
Lemma handled_logged h T enc pp : (forall now done eth data, fok (seqcalls h T enc now done eth data) (pp now done eth data)) ->
  forall ft l vs, handled pp (tier_table h T) ft l vs -> exists cl ft', logged h T enc ft l vs cl ft'.
Proof.
  intros F ft l vs H. induction H as [ft|s now done eth data v s' ev r vs W R H (cl & ft' & IH)]; [exists [], ft; constructor|].
  destruct (proj1 (fok_run (seqcalls h T enc now done eth data) ltac:(intros a b E X r0 own E0; cbn in *; rewrite E; apply (X r0 own E0)))
    _ _ _ _ _ (F now done eth data) W R) as [(E & Q)|[(K & w & ob & rc & val & (d & A & B & ->) & D & E & ->)|(K & dat & ob & rc & val & (d & A & B & ->) & D & E & G)]].
  - exists cl, ft'. apply lg_quiet; auto. rewrite <- E. exact IH.
  - eexists _, ft'. eapply lg_first; [exact A|exact B|exact D|exact E|exact IH].
  - eexists _, ft'. eapply lg_other; [exact A|exact B|exact D|exact E|exact G|exact IH].
Qed.
Lemma logged_clock h T enc ft l vs cl ft' : logged h T enc ft l vs cl ft' -> forall t0 t1, t1 <= t0 -> clock t0 l -> Frag_Spec.calls_clock t1 cl.
Proof.
  induction 1; intros t0 t1 LE CK; cbn [clock Frag_Spec.calls_clock] in *; auto; destruct CK as (A & B).
  - apply (IHlogged now t1); [lia|auto].
  - cbn [Frag_Model.c_now]. split; [lia|]. apply (IHlogged now now); [lia|auto].
  - cbn [Frag_Model.c_now]. split; [lia|]. apply (IHlogged now now); [lia|auto].
Qed.
Lemma logged_app h T enc l1 : forall ft l2 vs1 vs2 cl ft', logged h T enc ft (l1 ++ l2) (vs1 ++ vs2) cl ft' -> length vs1 = length l1 ->
  exists cl1 cl2 ft1, cl = cl1 ++ cl2 /\ logged h T enc ft l1 vs1 cl1 ft1 /\ logged h T enc ft1 l2 vs2 cl2 ft'.
Proof.
  induction l1 as [|a l1 IH]; intros ft l2 [|v vs1] vs2 cl ft' H L; try discriminate; [exists [], cl, ft; split; auto; split; auto; constructor|].
  cbn [app] in H. injection L as L. inversion H; subst.
  - match goal with X : logged _ _ _ _ (l1 ++ l2) _ _ _ |- _ => destruct (IH _ _ _ _ _ _ X L) as (cl1 & cl2 & ft1 & -> & A & B) end.
    exists cl1, cl2, ft1. split; auto. split; auto. apply lg_quiet; auto.
  - match goal with X : logged _ _ _ _ (l1 ++ l2) _ _ _ |- _ => destruct (IH _ _ _ _ _ _ X L) as (cl1 & cl2 & ft2 & -> & A & B) end.
    eexists (_ :: cl1), cl2, ft2. split; [reflexivity|]. split; auto. eapply lg_first; eauto.
  - match goal with X : logged _ _ _ _ (l1 ++ l2) _ _ _ |- _ => destruct (IH _ _ _ _ _ _ X L) as (cl1 & cl2 & ft2 & -> & A & B) end.
    eexists (_ :: cl1), cl2, ft2. split; [reflexivity|]. split; auto. eapply lg_other; eauto.
Qed.
Lemma clock_app l1 l2 : forall t0, clock t0 (l1 ++ l2) -> exists t1, t0 <= t1 /\ clock t1 l2.
Proof.
  induction l1 as [|[[[now done] eth] data] l1 IH]; intros t0 H; [exists t0; split; [lia|auto]|]. destruct H as (A & B).
  destruct (IH _ B) as (t1 & C & D). exists t1. split; [lia|auto].
Qed.
Lemma ret_rc ob a b : Frag_Spec.rc_of ob = [(a, b)] -> retOf ob = Some (a, b).
Proof.
  unfold retOf. assert (G : forall ob r, fold_left (fun r o => match o with Frag_Model.Returned _ rc v => Some (rc, v) | _ => r end) ob r =
    match Frag_Spec.rc_of ob with [] => r | x :: l => Some (last (x :: l) x) end).
  { clear. induction ob as [|o ob IH]; intros r; [reflexivity|]. cbn [fold_left]. rewrite IH. destruct o; cbn [Frag_Spec.rc_of flat_map app];
      try reflexivity. unfold Frag_Spec.rc_of. destruct (flat_map _ ob) as [|y q]; [reflexivity|]. f_equal. cbn [last]. destruct q; auto.
      clear. revert y p. induction q as [|z q IH]; intros y p; auto. cbn [last]. destruct q; auto. exact (IH y z). }
  rewrite G. intros ->. reflexivity.
Qed.
Lemma keep_other g s m k c done an m1 : Frag_Spec.call_spec (Frag_Spec.no_bucket g s) (Frag_Spec.no_frag g s) (Frag_Model.g_ttl g) (Frag_Model.g_mtu g) m c done an m1 ->
  Frag_Model.c_k c <> k -> m1 k = m k.
Proof.
  intros H N. destruct c as [now k0 v0 w|now k0|now k0 dd]; cbn [Frag_Model.c_k Frag_Spec.call_spec] in *; inversion H; subst;
    rewrite ?Frag3_Proofs.sput_other by congruence; auto.
  destruct done; [rewrite Frag3_Proofs.sdel_other by congruence|rewrite Frag3_Proofs.sput_other by congruence]; auto.
Qed.

Lemma follow_ok h T enc d v : tmark h T d = None -> (exists enc eth data b, frag_of enc eth data b d) -> forall ft l vs cl ft', logged h T enc ft l vs cl ft' ->
  forall m ans s' m' t0 t1, Frag_Spec.sessions (h_frag h) ft m cl ans s' m' -> m (dkey d) = Some (Frag_Spec.mkSess (Frag_Spec.SValid v) t1) ->
  t0 <= t1 -> clock t1 l -> follow enc (Frag_Model.g_ttl (h_frag h)) d v (marks h) t0 l vs.
Proof.
  intros TD (enc0 & eth0 & data0 & b0 & F0) ft l vs cl ft' H.
  induction H as [ft|ft now done eth data x r vs cl ft' Q L IH|ft now done eth data d' w ob rc val ft1 r vs cl ft' F N E R L IH
    |ft now done eth data d' dat ob rc val x ft1 r vs cl ft' F N E R RX L IH]; intros m ans s' m' t0 t1 S M LE CK; [exact I|..]; cbn [clock] in CK; destruct CK as (CK1 & CK2); intros TL.
  - assert (CKr : clock t1 r) by (destruct r as [|[[[n' d'] e'] da'] r]; [exact I|]; cbn [clock] in *; destruct CK2; split; [lia|auto]).
    assert (G : follow enc (Frag_Model.g_ttl (h_frag h)) d v (marks h) t0 r vs) by (eapply IH; eauto).
    split; [|split]; auto.
    + intros X. right. destruct (Q _ _ X) as [Y|(_ & _ & Y)]; [congruence|auto].
    + intros X. destruct (Q _ _ X) as [Y|(Y & _)]; [congruence|discriminate].
  - destruct (Frag3_Proofs.sessions_inv _ _ _ _ _ _ _ _ _ S) as (ob' & s1 & an & m1 & ans' & -> & E' & R' & _ & SP & S').
    rewrite E in E'. injection E' as <- <-. apply ret_rc in R'. rewrite R in R'. injection R' as -> ->.
    assert (NO : ~ frag_of enc eth data false d) by (intros X; destruct (frag_unique _ _ _ _ _ _ _ F X); discriminate).
    destruct (list_eq_dec Z.eq_dec (dkey d') (dkey d)) as [K|K].
    + assert (d' = d) as -> by (apply (dkey_inj _ _ _ _ _ _ _ _ _ _ F F0 K)).
      assert (Cur : Frag_Spec.current (Frag_Model.g_ttl (h_frag h)) m now (dkey d) = Some (Frag_Spec.SValid v)).
      { unfold Frag_Spec.current. rewrite M. cbn [Frag_Spec.ss_last Frag_Spec.ss]. destruct (Z.leb_spec (now - t1) (Frag_Model.g_ttl (h_frag h))); [reflexivity|lia]. }
      cbn [Frag_Spec.call_spec] in SP. inversion SP; subst; try congruence. cbn [Frag_Spec.refused Frag_Spec.an_rc]. assert (st = Frag_Spec.SValid v) as -> by congruence.
      split; [intros _; right; left; reflexivity|]. split; [intros X; destruct (NO X)|]. intros _. eapply IH; [exact S'|apply Frag3_Proofs.sput_same|lia|auto].
    + split; [intros X; destruct (frag_unique _ _ _ _ _ _ _ F X) as (_ & ->); congruence|]. split; [intros X; destruct (NO X)|]. intros _.
      apply (IH m1 ans' s' m' t0 t1); auto; [rewrite (keep_other _ _ _ _ _ _ _ _ SP); auto|].
      destruct r as [|[[[n' d''] e'] da'] r]; [exact I|]; cbn [clock] in *; destruct CK2; split; [lia|auto].
  - destruct (Frag3_Proofs.sessions_inv _ _ _ _ _ _ _ _ _ S) as (ob' & s1 & an & m1 & ans' & -> & E' & R' & _ & SP & S').
    rewrite E in E'. injection E' as <- <-. apply ret_rc in R'. rewrite R in R'. injection R' as -> ->.
    assert (NO : ~ frag_of enc eth data true d) by (intros X; destruct (frag_unique _ _ _ _ _ _ _ F X); discriminate).
    destruct (list_eq_dec Z.eq_dec (dkey d') (dkey d)) as [K|K].
    + assert (d' = d) as -> by (apply (dkey_inj _ _ _ _ _ _ _ _ _ _ F F0 K)).
      assert (Cur : Frag_Spec.current (Frag_Model.g_ttl (h_frag h)) m now (dkey d) = Some (Frag_Spec.SValid v)).
      { unfold Frag_Spec.current. rewrite M. cbn [Frag_Spec.ss_last Frag_Spec.ss]. destruct (Z.leb_spec (now - t1) (Frag_Model.g_ttl (h_frag h))); [reflexivity|lia]. }
      split; [intros X; destruct (NO X)|]. cbn [Frag_Spec.call_spec] in SP.
      inversion SP; subst; try congruence; try (unfold Frag_Spec.storing in *; intuition congruence).
      assert (v0 = v) as -> by congruence. cbn [Frag_Spec.an_rc Frag_Spec.an_val] in RX. assert (x = v) as -> by (destruct RX as [(_ & RX)|(RX & _)]; congruence).
      split; [|intros X; destruct (X F)]. intros _. split; auto. intros ->. eapply IH; [exact S'|apply Frag3_Proofs.sput_same|lia|auto].
    + split; [intros X; destruct (NO X)|]. split; [intros X; destruct (frag_unique _ _ _ _ _ _ _ F X) as (_ & ->); congruence|]. intros _.
      apply (IH m1 ans' s' m' t0 t1); auto; [rewrite (keep_other _ _ _ _ _ _ _ _ SP); auto|].
      destruct r as [|[[[n' d''] e'] da'] r]; [exact I|]; cbn [clock] in *; destruct CK2; split; [lia|auto].
Qed.
Lemma follow_tier h T enc d v t0 ttl ft l vs cl ft' : tmark h T d = Some v -> logged h T enc ft l vs cl ft' -> follow enc ttl d v (marks h) t0 l vs.
Proof.
  intros TD H. revert t0.
  induction H as [ft|ft now done eth data x r vs cl ft' Q L IH|ft now done eth data d' w ob rc val ft1 r vs cl ft' F N E R L IH
    |ft now done eth data d' dat ob rc val x ft1 r vs cl ft' F N E R RX L IH]; intros t0; [exact I|..]; intros TL.
  - assert (G : forall b, frag_of enc eth data b d -> x = v) by (intros b X; destruct (Q _ _ X) as [Y|(_ & Y & _)]; congruence).
    split; [left; eauto|]. split; [intros X; split; eauto|]. auto.
  - assert (G : forall b, ~ frag_of enc eth data b d) by (intros b X; destruct (frag_unique _ _ _ _ _ _ _ F X) as (_ & ->); congruence).
    split; [intros X; destruct (G _ X)|]. split; [intros X; destruct (G _ X)|]. auto.
  - assert (G : forall b, ~ frag_of enc eth data b d) by (intros b X; destruct (frag_unique _ _ _ _ _ _ _ F X) as (_ & ->); congruence).
    split; [intros X; destruct (G _ X)|]. split; [intros X; destruct (G _ X)|]. auto.
Qed.
Lemma logged_state h T enc ft l vs cl ft' : logged h T enc ft l vs cl ft' -> forall m ans s' m', Frag_Spec.sessions (h_frag h) ft m cl ans s' m' -> s' = ft'.
Proof.
  intros H. induction H as [ft|ft now done eth data x r vs cl ft' Q L IH|ft now done eth data d' w ob rc val ft1 r vs cl ft' F N E R L IH
    |ft now done eth data d' dat ob rc val x ft1 r vs cl ft' F N E R RX L IH]; intros m ans s' m' S; [inversion S; auto|eauto|..];
    destruct (Frag3_Proofs.sessions_inv _ _ _ _ _ _ _ _ _ S) as (ob' & s1 & an & m1 & ans' & -> & E' & R' & _ & SP & S');
    rewrite E in E'; injection E' as <- <-; eauto.
Qed.
Lemma steer h T enc pp : (forall now done eth data, fok (seqcalls h T enc now done eth data) (pp now done eth data)) ->
  Frag_Spec.conf_seq (h_frag h) -> forall l1 now done eth data l2 vs1 v vs2 d,
  handled pp (tier_table h T) (Frag_Model.fragTableCreate (h_frag h)) (l1 ++ (now, done, eth, data) :: l2) (vs1 ++ v :: vs2) -> length vs1 = length l1 ->
  clock 0 (l1 ++ (now, done, eth, data) :: l2) -> frag_of enc eth data true d -> ~ In v (marks h) ->
  follow enc (Frag_Model.g_ttl (h_frag h)) d v (marks h) now l2 vs2.
Proof.
  intros PF CF l1 now done eth data l2 vs1 v vs2 d H L CK F NV. destruct (handled_logged _ _ _ _ PF _ _ _ H) as (cl & ft' & LG).
  destruct (Frag3_Proofs.sessions_ok (h_frag h) cl CF (logged_clock _ _ _ _ _ _ _ _ LG 0 0 ltac:(lia) CK)) as (ans & s' & m' & S).
  destruct (logged_app _ _ _ _ _ _ _ _ _ _ LG L) as (cl1 & cl2 & ft1 & -> & LG1 & LG2).
  destruct (Frag3_Proofs.sessions_app _ _ _ _ _ _ _ _ S) as (a1 & a2 & s1 & m1 & -> & _ & S1 & S2).
  assert (s1 = ft1) as -> by (eapply logged_state; eauto). destruct (clock_app _ _ _ CK) as (t1 & _ & CK1). cbn [clock] in CK1. destruct CK1 as (CK1 & CK2).
  inversion LG2 as [|? ? ? ? ? ? ? ? ? ? Q LG3|? ? ? ? ? d' w ob rc val ft2 ? ? cl3 ? F' N' E R LG3|? ? ? ? ? d' ? ? ? ? ? ? ? ? ? ? F']; subst.
  - destruct (Q _ _ F) as [Y|(_ & _ & Y)]; [|destruct (NV Y)]. eapply follow_tier; eauto.
  - destruct (frag_unique _ _ _ _ _ _ _ F F') as (_ & ->). assert (RZ : rc = 0).
    { destruct (Z.eq_dec rc 0) as [X|X]; auto. exfalso. apply NV. rewrite (proj2 (Z.eqb_neq _ _) X). left. auto. }
    rewrite RZ in *. change (0 =? 0) with true in *. cbv iota in *. clear RZ.
    destruct (Frag3_Proofs.sessions_inv _ _ _ _ _ _ _ _ _ S2) as (ob' & s2 & an & m2 & ans' & -> & E' & R' & _ & SP & S3).
    rewrite E in E'. injection E' as <- <-. apply ret_rc in R'. rewrite R in R'. injection R' as RC ->.
    apply (follow_ok h T enc d w N' ltac:(eauto 6) _ _ _ _ _ LG3 m2 ans' s' m' now now S3); [|lia|auto].
    cbn [Frag_Spec.call_spec] in SP. inversion SP; subst; try discriminate; apply Frag3_Proofs.sput_same.
  - destruct (frag_unique _ _ _ _ _ _ _ F F'); discriminate.
Qed.
Lemma steer_flowlb h T : Frag_Spec.conf_seq (h_frag h) -> forall l1 now done eth data l2 vs1 v vs2 d,
  handled (packet h) (tier_table h T) (Frag_Model.fragTableCreate (h_frag h)) (l1 ++ (now, done, eth, data) :: l2) (vs1 ++ v :: vs2) -> length vs1 = length l1 ->
  clock 0 (l1 ++ (now, done, eth, data) :: l2) -> frag_of 0 eth data true d -> ~ In v [-1; h_notargets h; h_nolb h] ->
  follow 0 (Frag_Model.g_ttl (h_frag h)) d v [-1; h_notargets h; h_nolb h] now l2 vs2.
Proof.
  apply (steer h T 0 (packet h)). intros now done eth data. eapply packet_fok; [|apply seq_conditions]. split; [|split]; reflexivity.
Qed.
Lemma steer_lb g T : Frag_Spec.conf_seq (h_frag (l_h g)) -> forall l1 now done eth data l2 vs1 v vs2 d,
  handled (lbPacket g) (tier_table (l_h g) T) (Frag_Model.fragTableCreate (h_frag (l_h g))) (l1 ++ (now, done, eth, data) :: l2) (vs1 ++ v :: vs2) ->
  length vs1 = length l1 -> clock 0 (l1 ++ (now, done, eth, data) :: l2) -> frag_of (l_encap g) eth data true d ->
  ~ In v [-1; h_notargets (l_h g); h_nolb (l_h g)] ->
  follow (l_encap g) (Frag_Model.g_ttl (h_frag (l_h g))) d v [-1; h_notargets (l_h g); h_nolb (l_h g)] now l2 vs2.
Proof.
  apply (steer (l_h g) T (l_encap g) (lbPacket g)). intros now done eth data. eapply lb_fok; [|apply seq_conditions]. split; [|split]; reflexivity.
Qed.
