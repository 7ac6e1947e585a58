(** Trace flows (C66): names written, memory, ICMP lines. *)
From Coq Require Import String.
From Verif Require Import Base Lists Cstr_Model Util_Spec Util_Proofs IpKey_Model IpKey_Spec IpKey_Proofs Match_Model Match_Spec Flow_Model Flow_Spec Flow_Proofs Flow2_Proofs Flow3_Proofs
  Remote_Model FlowLb_Model FlowLb_Proofs Requests_Spec Requests_Proofs Print_Model Print_Spec Print4_Proofs Trace_Model Trace_Spec Trace_Proofs.

(** ** The lookup *)
Definition first_of (now : chars -> option fargs) (acc : chars -> Prop) (r : Z) : Prop :=
  (r <> 0 -> exists n a, now n = Some a /\ a_ref a = r /\ acc n /\
     forall n' a', now n' = Some a' -> a_ref a' <> 0 -> acc n' -> a_priority a' <= a_priority a) /\
  (r = 0 -> forall n' a', now n' = Some a' -> acc n' -> a_ref a' = 0).
(** [acc] tells what the rules R accept, under the condition [okn] *)
Definition decides (L : libc) (R : chars -> rule) (okn : chars -> Prop) (eth : Z) (data : list Z) (acc : chars -> Prop) : Prop :=
  forall set now, stands L set now -> (forall n a, now n = Some a -> means L a (R n) /\ okn n) ->
    exists rc k fi r u, getHashKey (S (length data)) 0 eth data = Ok (Some (rc, k, fi)) /\ Z.land rc 3 <> 2 /\
      flowLookup true set k eth (Some data) 0 = Ok (r, u) /\ first_of now acc r.

Lemma decides_l4 L R eth data fl l4 : libc_ok L -> flow_ok fl -> l4_packet eth data (fl_proto fl) (fl_src fl) (fl_dst fl) l4 ->
  ports_at data l4 (fl_sport fl) (fl_dport fl) ->
  decides L R (fun n => r_match (R n) <> None -> complete_plus data (fl_proto fl) l4) eth data (fun n => accepts_packet (R n) fl data l4).
Proof.
  intros HL FK P4 PA set now (ops & ans & RN & ->) M.
  destruct (classification L ops set ans R (length data) eth data fl l4 0 HL RN) as (k & r & u & K & LK & C1 & C2); auto.
  - intros n a E. apply (M n a E).
  - intros n a E. apply (M n a E).
  - assert (k = mk_flow_key fl).
    { assert (X : getHashKey (S (length data)) 0 eth data = Ok (Some (0, mk_flow_key fl, None))) by (apply plain_key; auto; exists l4; auto). congruence. }
    exists 0, k, None, r, u. split; auto. split; [discriminate|]. split; [|split; auto].
    rewrite ping_others; auto; subst k; destruct FK as (_ & _ & PP & _); change (kproto (mk_flow_key fl)) with (fl_proto fl + 256 * 0); lia.
Qed.
Lemma decides_icmp L R eth data t src dst : libc_ok L -> icmp_message eth data t src dst -> ~ quoting eth t -> bytes 16 src -> bytes 16 dst ->
  decides L R (fun _ => True) eth data (fun n => accepts_addr (R n) src dst).
Proof.
  intros HL IM NQ B1 B2 set now (ops & ans & RN & ->) M.
  destruct (ping_classification L ops set ans R (length data) eth data t src dst 0 HL RN) as (k & r & u & K & LK & C1 & C2); auto.
  - intros n a E. apply (M n a E).
  - exists 16, k, None, r, u. split; auto. split; [discriminate|]. split; [auto|split; auto].
Qed.

Lemma means_ref L c n r x : means L (cmdArgs c n 0) r -> means L (cmdArgs c n x) r.
Proof. auto. Qed.

(** What a lookup finds *)
Lemma looked_up L P may R okn eth data acc tr w id ev w' : libc_ok L -> texec L P may tr w -> decides L R okn eth data acc ->
  (forall n c, asked tr n (Some c) -> says L c (R n) /\ okn n) ->
  tstep L P w (TLookup id eth data) = Some (TCont w' ev) ->
  (ev = Found /\ exists a n c, holding id a eth data n w' /\ asked tr n (Some c) /\ acc n /\
     forall n' c', asked tr n' (Some c') -> acc n' -> c_priority c' <= c_priority c) \/
  (ev = Missed /\ forall n' c', asked tr n' (Some c') -> ~ acc n').
Proof.
  intros HL X D SY S. destruct (TI_exec L P may tr w HL X) as (now & ST & A & _).
  assert (AS : forall n c, asked tr n (Some c) -> exists a, now n = Some a /\ a = cmdArgs c n (a_ref a) /\ nameAt w (a_ref a) = Some n).
  { intros n c E. specialize (A n). destruct (now n) as [a|]; [|pose proof (asked_fun _ _ _ _ E A); discriminate].
    destruct A as (c' & A1 & A2 & A3 & A4). assert (c' = c) by (pose proof (asked_fun _ _ _ _ E A1); congruence). subst c'. exists a. auto. }
  destruct (D (x_set w) now ST) as (rc & k & fi & r & u & K & NF & LK & C1 & C2).
  { intros n a E. specialize (A n). rewrite E in A. destruct A as (c & A1 & A2 & A3 & _). destruct (SY n c A1) as ((n' & N' & M) & O).
    split; auto. assert (n' = n) by congruence. subst n'. rewrite A3. apply means_ref. auto. }
  cbn [tstep] in S. destruct (existsb (isFd id) (x_pk w)) eqn:EX; [discriminate|]. injection S as S. unfold traceLookup in S.
  rewrite K in S. destruct (Z.eqb_spec (Z.land rc 3) 2) as [|_]; [contradiction|]. rewrite LK in S. destruct (Z.eqb_spec r 0) as [R0|R0].
  - injection S as <- <-. right. split; auto. intros n' c' E AC. destruct (AS n' c' E) as (a & E1 & E2 & E3). apply (C2 R0 n' a E1) in AC.
    apply nameAt_range in E3. lia.
  - injection S as <- <-. left. split; auto. destruct (C1 R0) as (n & a & E & F & AC & MX). exists r, n.
    pose proof (A n) as An. rewrite E in An. destruct An as (c & A1 & A2 & A3 & A4). exists c. split; [|split; [auto|split; [auto|]]].
    + split; [|left; cbn; rewrite <- F; exact A4]. cbn [x_pk].
      clear - EX. induction (x_pk w) as [|y l IH]; cbn [existsb find app] in *.
      * unfold isFd at 1. cbn [fd_id]. rewrite Z.eqb_refl. reflexivity.
      * apply orb_false_iff in EX. destruct EX as (-> & EX). auto.
    + intros n' c' E' AC'. destruct (AS n' c' E') as (a' & E1 & E2 & E3). pose proof (MX n' a' E1) as Q. rewrite E2, A3 in Q. cbn in Q. apply Q; auto.
      apply nameAt_range in E3. lia.
Qed.

Lemma holding_write L P id a eth data n w ev w' : holding id a eth data n w -> tstep L P w (TWrite id) = Some (TCont w' ev) ->
  exists t, ev = Wrote n t /\ printIcmp eth data = Ok t.
Proof.
  intros (H1 & H2) S. cbn [tstep] in S. rewrite H1 in S. cbn [fd_ref fd_eth fd_data] in S.
  destruct H2 as [H2|(H2 & _)]; rewrite H2 in S; [|discriminate]. destruct (printIcmp eth data) as [t| | |]; try discriminate.
  injection S as _ <-. exists t. auto.
Qed.

(** The name written *)
Lemma named_generic L P R okn eth data acc tr id ev : libc_ok L -> decides L R okn eth data acc -> written L P id eth data tr ev ->
  (forall n c, asked tr n (Some c) -> says L c (R n) /\ okn n) ->
  exists n c t, ev = Wrote n t /\ printIcmp eth data = Ok t /\ asked tr n (Some c) /\ acc n /\
    forall n' c', asked tr n' (Some c') -> acc n' -> c_priority c' <= c_priority c.
Proof.
  intros HL D (tr2 & w & may & X & N) SY.
  rewrite !app_assoc in X. apply texec_last in X. destruct X as (w3 & X3 & _ & S3).
  destruct (texec_split L P may tr2 _ _ X3) as (w2 & X2 & _).
  pose proof (texec_last _ _ _ _ _ _ _ X2) as (w1 & X1 & _ & S1).
  destruct (looked_up L P may R okn eth data acc tr w1 id Found w2 HL X1 D SY S1) as [(_ & a & n & c & H & A & AC & MX)|(E & _)]; [|discriminate].
  assert (H3 : holding id a eth data n w3).
  { eapply (holding_exec L P may id a eth data n _ w2 tr2 w3 X2 H X3); auto. intros w' W. eapply texec_fun; eauto. }
  destruct (holding_write _ _ _ _ _ _ _ _ _ _ H3 S3) as (t & E & T). exists n, c, t. auto.
Qed.
Lemma missed_generic L P may R okn eth data acc tr id w : libc_ok L -> decides L R okn eth data acc ->
  texec L P may (tr ++ [(TLookup id eth data, Missed)]) w ->
  (forall n c, asked tr n (Some c) -> says L c (R n) /\ okn n) ->
  forall n c, asked tr n (Some c) -> ~ acc n.
Proof.
  intros HL D X SY. apply texec_last in X. destruct X as (w1 & X1 & _ & S).
  destruct (looked_up L P may R okn eth data acc tr w1 id Missed w HL X1 D SY S) as [(E & _)|(_ & H)]; [discriminate|auto].
Qed.

(** ** Names are not used when they are gone *)
Definition PK (w : tworld) : Prop := forall p, In p (x_pk w) -> nameAt w (fd_ref p) <> None.
Lemma PK_step L P tr w m ev w' : libc_ok L -> TI L tr w -> PK w -> careful w m -> tstep L P w m = Some (TCont w' ev) -> PK w'.
Proof.
  intros HL (now & ST & A & F) I C S. destruct m as [c| |id eth data|id]; cbn [tstep] in S.
  - destruct (x_free w =? 0); [|discriminate]. injection S as S. unfold traceRequest in S.
    destruct (c_action c) as [act|]; [|discriminate].
    assert (NEW : forall k set fr, PK (mkTW (x_names w ++ [Some k]) set fr (x_pk w))).
    { intros k set fr p HP. specialize (I p HP). destruct (nameAt w (fd_ref p)) as [m|] eqn:E; [|contradiction]. rewrite (nameAt_old _ _ _ _ _ _ _ E). discriminate. }
    destruct (streq act (str "trace-set")).
    { destruct (c_name c) as [k|]; [|discriminate]. destruct (flowDefine _ _ _) as [[[e|] set]| | |]; try discriminate; injection S as <- <-; apply NEW. }
    destruct (streq act (str "trace-delete")).
    { destruct (c_name c) as [k|]; [|injection S as <- <-; auto]. destruct (flowDelete _ _) as [[f|] set]; injection S as <- <-; auto. }
    destruct (streq act (str "trace-list")); [destruct (flowSetPrint _ _ _); try discriminate; injection S as <- <-; auto|].
    destruct (streq act (str "trace-list-names")); injection S as <- <-; auto.
  - destruct (x_free w =? 0); [discriminate|]. destruct (nameAt w (x_free w)) as [k|] eqn:E; [|discriminate]. injection S as <- <-.
    intros p HP. cbn [x_pk] in HP. specialize (I p HP). specialize (C p HP). destruct (nameAt w (fd_ref p)) as [m|] eqn:E2; [|contradiction].
    rewrite (nameAt_freed _ _ _ _ _ _ _ (not_eq_sym C) E2). discriminate.
  - destruct (existsb _ _); [discriminate|]. injection S as S. unfold traceLookup in S.
    destruct (getHashKey _ _ _ _) as [[[[rc k] fi]|]| | |]; try discriminate; [|injection S as <- _; auto].
    destruct (_ =? 2); [injection S as <- _; auto|]. destruct (flowLookup _ _ _ _ _ _) as [[r u]| | |] eqn:EL; try discriminate.
    destruct (Z.eqb_spec r 0) as [|R0]; injection S as <- _; [auto|]. intros p HP. cbn [x_pk] in HP. apply in_app_or in HP. destruct HP as [HP|[<-|[]]]; [exact (I p HP)|].
    cbn [fd_ref]. destruct ST as (ops & ans & RN & ->). destruct (any_packet _ _ _ _ _ _ _ _ _ _ _ HL RN EL) as (Q & _).
    destruct (Q R0) as (f & FI & FR & _). destruct (map_semantics _ _ _ _ HL RN) as (_ & _ & _ & MS). apply MS in FI. destruct FI as (a & CU & MK).
    specialize (A (a_name a)). rewrite CU in A. destruct A as (c & _ & _ & _ & A4).
    destruct (makeFlow_fields _ _ _ MK) as (_ & _ & R & _). change (nameAt w r <> None). rewrite <- FR, R, A4. discriminate.
  - destruct (find (isFd id) (x_pk w)) as [p|]; [|discriminate]. destruct (nameAt w (fd_ref p)); [|discriminate].
    destruct (printIcmp _ _); try discriminate. injection S as <- _. intros q HQ. cbn [x_pk] in HQ. apply filter_In in HQ. destruct HQ as (HQ & _). exact (I q HQ).
Qed.
Lemma PK_exec L P tr w : libc_ok L -> texec L P careful tr w -> PK w.
Proof.
  intros HL. induction 1 as [|tr w m ev w' X IH M H]; [intros p []|]. eapply PK_step; eauto. eapply TI_exec; eauto.
Qed.
Lemma names_safe L P tr w m : libc_ok L -> texec L P careful tr w -> careful w m -> tstep L P w m <> Some TBad.
Proof.
  intros HL X C S. pose proof (PK_exec L P tr w HL X) as I. pose proof (TI_exec L P careful tr w HL X) as (now & ST & A & F).
  destruct m as [c| |id eth data|id]; cbn [tstep] in S.
  - destruct (x_free w =? 0); [|discriminate]. injection S as S. unfold traceRequest in S.
    destruct (c_action c) as [act|] eqn:AC; [|discriminate]. destruct (streq act (str "trace-set")) eqn:ES.
    { apply streq_eq in ES. subst act. destruct (c_name c) as [k|] eqn:EN; [|apply C; auto]. destruct (flowDefine _ _ _) as [[[e|] set]| | |]; discriminate. }
    destruct (streq act (str "trace-delete")).
    { destruct (c_name c) as [k|]; [|discriminate]. destruct (flowDelete _ _) as [[f|] set]; discriminate. }
    destruct (streq act (str "trace-list")); [destruct (flowSetPrint _ _ _); discriminate|].
    destruct (streq act (str "trace-list-names")); discriminate.
  - destruct (Z.eqb_spec (x_free w) 0) as [|F0]; [discriminate|]. destruct (F F0) as (F1 & _). destruct (nameAt w (x_free w)); [discriminate|contradiction].
  - destruct (existsb _ _); [discriminate|]. injection S as S. unfold traceLookup in S.
    destruct (getHashKey _ _ _ _) as [[[[rc k] fi]|]| | |]; try discriminate. destruct (_ =? 2); [discriminate|].
    destruct (flowLookup _ _ _ _ _ _) as [[r u]| | |]; try discriminate. destruct (r =? 0); discriminate.
  - destruct (find (isFd id) (x_pk w)) as [p|] eqn:E; [|discriminate]. apply find_some in E. destruct E as (E & _). specialize (I p E).
    destruct (nameAt w (fd_ref p)); [|contradiction]. destruct (printIcmp _ _); discriminate.
Qed.
(** free() is called once for each name. *)
Lemma free_safe L P may tr w : libc_ok L -> texec L P may tr w -> tstep L P w TFree <> Some TBad.
Proof.
  intros HL X S. pose proof (TI_exec L P may tr w HL X) as (now & ST & A & F). cbn [tstep] in S.
  destruct (Z.eqb_spec (x_free w) 0) as [|F0]; [discriminate|]. destruct (F F0) as (F1 & _). destruct (nameAt w (x_free w)); [discriminate|contradiction].
Qed.
