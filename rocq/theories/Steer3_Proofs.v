(** All fragments of a datagram get the same decision (C13): any interleaving of packets, with
    calls of the fragment table that are not interrupted. *)
From Coq Require Import String.
From Verif Require Import Base Lists Cstr_Model IpKey_Model IpKey_Spec Maglev_Model Flow_Model Remote_Model FlowLb_Model FlowLb_Spec FlowLb4_Proofs Lb_Model Lb_Spec
  Lb_Proofs Lb2_Proofs Steer_Spec Steer_Proofs Steer2_Proofs.
From Verif Require Frag_Model Frag_Spec Frag_Proofs Frag2_Proofs.

(** ** What a call of the fragment table reports *)
Definition only (ob : list Frag_Model.obs) : Prop := forall x, In x ob -> exists k l, x = Frag_Model.Discarded k l.
Lemma only_nil : only [].
Proof. intros x []. Qed.
Lemma only_app a b : only a -> only b -> only (a ++ b).
Proof. intros A B x X. apply in_app_or in X. destruct X; auto. Qed.
Lemma unlock_only s o s' ob : Frag_Model.fragDataUnlock s o = Ok (s', ob) -> only ob.
Proof.
  unfold Frag_Model.fragDataUnlock. destruct (Frag_Model.oget _ o) as [b|]; [|discriminate]. destruct (_ =? 0); intros H; injection H as <- <-; [|apply only_nil].
  intros x [<-|[]]. eauto.
Qed.
Lemma callbacks_only ev : forall s s' ob, Frag_Model.callbacks s ev = Ok (s', ob) -> only ob.
Proof.
  induction ev as [|e ev IH]; intros s s' ob H; cbn [Frag_Model.callbacks] in H; [injection H as <- <-; apply only_nil|].
  match type of H with obind ?x _ = _ => destruct x as [[s1 ob1]| | |] eqn:E1; try discriminate end. cbn [obind] in H.
  destruct (Frag_Model.callbacks s1 ev) as [[s2 ob2]| | |] eqn:E2; try discriminate. cbn [obind] in H. injection H as <- <-.
  apply only_app; [|eapply IH; eauto]. destruct e as [d|m|[r|]]; try (injection E1 as <- <-; apply only_nil). eapply unlock_only; eauto.
Qed.
Lemma table_only s o s' v ob : Frag_Model.table_op s o = Ok (s', v, ob) -> only ob.
Proof.
  unfold Frag_Model.table_op. destruct (Conntrack_Model.cstep _ o) as [[[t v1] ev]| | |]; try discriminate. cbn [obind].
  destruct (Frag_Model.callbacks _ ev) as [[s2 ob2]| | |] eqn:E; try discriminate. cbn [obind]. intros H. injection H as <- <- <-. eapply callbacks_only; eauto.
Qed.
Lemma lookup_only s now k s' o ob : Frag_Model.lookup_op s now k = Ok (s', o, ob) -> only ob.
Proof.
  unfold Frag_Model.lookup_op. destruct (Frag_Model.table_op s _) as [[[s1 o1] ob1]| | |] eqn:E; try discriminate. cbn [obind]. apply table_only in E.
  destruct (o1 =? 0); [intros H; injection H as <- <- <-; auto|]. destruct (Frag_Model.fragDataLock s1 o1); try discriminate. cbn [obind]. intros H. injection H as <- <- <-. auto.
Qed.
Lemma insert_only g s now k o st s' rc ob : Frag_Model.insert_op g s now k o st = Ok (s', rc, ob) -> only ob.
Proof.
  unfold Frag_Model.insert_op. destruct (Conntrack_Model.ctInsertWithTTL _ _ _ _ _ _) as [[[? ?] ?]| | |]; try discriminate. cbn [obind]. intros H.
  eapply table_only. exact H.
Qed.
Definition pcall (p : Frag_Model.pc) (c0 : Frag_Model.call) : Frag_Model.call :=
  match p with
  | Frag_Model.Idle => c0
  | Frag_Model.PAlloc c | Frag_Model.PIns c _ | Frag_Model.PInc c _ | Frag_Model.PLost c _ | Frag_Model.PAgain c | Frag_Model.PFull c _ | Frag_Model.PBody c _
  | Frag_Model.PTaken c _ _ | Frag_Model.PGive c _ | Frag_Model.PCheck c _ | Frag_Model.PVal c _ | Frag_Model.PItem c _ | Frag_Model.PPoison c _
  | Frag_Model.PPoisoned c _ _ | Frag_Model.PDrop c _ | Frag_Model.PPut c _ _ | Frag_Model.PBack c _ _ _ _ | Frag_Model.PUnl c _ _ _ => c
  end.
Definition giving (p : Frag_Model.pc) : bool := match p with Frag_Model.PTaken _ _ _ | Frag_Model.PGive _ _ => true | _ => false end.
Definition facts (p : Frag_Model.pc) (c : Frag_Model.call) (p' : Frag_Model.pc) (ob : list Frag_Model.obs) : Prop :=
  (p' <> Frag_Model.Idle -> forall c0, pcall p' c0 = c) /\
  (forall k v, In (Frag_Model.Accepted k v) ob -> (exists now w, c = Frag_Model.CFirst now k v w) /\ giving p' = true) /\
  (forall k rc v, In (Frag_Model.Returned k rc v) ob -> p' = Frag_Model.Idle /\ k = Frag_Model.c_k c) /\
  (giving p = true -> (p' = Frag_Model.Idle \/ giving p' = true) /\ forall k rc v, In (Frag_Model.Returned k rc v) ob -> rc = 0).
Lemma facts_only p c p' ob : only ob -> (forall c0, pcall p' c0 = c) -> (giving p = true -> giving p' = true) -> facts p c p' ob.
Proof.
  intros O C G. split; [auto|]. split; [intros k v X; destruct (O _ X) as (? & ? & Y); discriminate|].
  split; [intros k rc v X; destruct (O _ X) as (? & ? & Y); discriminate|]. intros X. split; auto.
  intros k rc v Y; destruct (O _ Y) as (? & ? & Z0); discriminate.
Qed.
Lemma facts_ret p c ob rc v : only ob -> (giving p = true -> rc = 0) -> facts p c Frag_Model.Idle (ob ++ Frag_Model.ret c rc v).
Proof.
  intros O G. split; [congruence|]. split.
  { intros k v' X. apply in_app_or in X. destruct X as [X|[X|[]]]; [destruct (O _ X) as (? & ? & Y)|]; discriminate. }
  split.
  - intros k rc' v' X. apply in_app_or in X. destruct X as [X|[X|[]]]; [destruct (O _ X) as (? & ? & Y); discriminate|]. injection X as <- <- <-. auto.
  - intros X. split; auto. intros k rc' v' Y. apply in_app_or in Y. destruct Y as [Y|[Y|[]]]; [destruct (O _ Y) as (? & ? & Z0); discriminate|]. injection Y as <- <- <-. auto.
Qed.
Lemma tstep_facts g s p a s' p' ob : Frag_Model.tstep g s p a = Ok (s', p', ob) -> facts p (pcall p (Frag_Model.a_call a)) p' ob.
Proof.
  intros H. assert (N : forall p' c, giving p = false \/ giving p' = true -> (forall c0, pcall p' c0 = c) -> facts p c p' []).
  { intros q c G C. apply facts_only; auto; [apply only_nil|]. destruct G as [-> |]; [discriminate|auto]. }
  assert (R : forall c rc v, giving p = false -> facts p c Frag_Model.Idle (Frag_Model.ret c rc v)).
  { intros c rc v G. apply (facts_ret p c [] rc v only_nil). rewrite G. discriminate. }
  destruct p as [|c|c o|c o|c o|c|c o|c o|c o l|c l|c o|c o|c o|c o|c o l|c l|c o f|c o f rc v|c o rc v]; cbn [Frag_Model.tstep] in H; cbn [pcall].
  - destruct (Frag_Model.lookup_op s _ _) as [[[s1 o] ob1]| | |] eqn:E; try discriminate. cbn [obind] in H. apply lookup_only in E.
    destruct (o =? 0); [|injection H as <- <- <-; apply facts_only; auto].
    destruct (Frag_Model.a_call a) as [now k v want|now k|now k d]; injection H as <- <- <-; [apply facts_only; auto|apply facts_ret; auto; discriminate|apply facts_only; auto].
  - destruct (_ <=? 0); injection H as <- <- <-; [apply R; auto|apply N; auto].
  - destruct (Frag_Model.insert_op g s _ _ _ _) as [[[s1 rc] ob1]| | |] eqn:E; try discriminate. cbn [obind] in H. apply insert_only in E.
    injection H as <- <- <-. apply facts_only; auto; [|discriminate]. intros c0. destruct (rc =? 0); [auto|]. destruct (rc =? 1); auto.
  - destruct (Frag_Model.fragDataLock s o) as [s1| | |]; try discriminate. cbn [obind] in H. injection H as <- <- <-. apply N; auto.
  - destruct (Frag_Model.fragDataUnlock s o) as [[s1 ob1]| | |] eqn:E; try discriminate. cbn [obind] in H. apply unlock_only in E. injection H as <- <- <-. apply facts_only; auto.
  - destruct (Frag_Model.lookup_op s _ _) as [[[s1 o] ob1]| | |] eqn:E; try discriminate. cbn [obind] in H. apply lookup_only in E.
    destruct (o =? 0); injection H as <- <- <-; [apply facts_ret; auto; discriminate|apply facts_only; auto].
  - destruct (Frag_Model.fragDataUnlock s o) as [[s1 ob1]| | |] eqn:E; try discriminate. cbn [obind] in H. apply unlock_only in E. injection H as <- <- <-.
    apply facts_ret; auto; discriminate.
  - destruct (Frag_Model.oget _ o) as [b|]; [|discriminate]. destruct c as [now k v want|now k|now k d].
    + destruct (Frag_Model.o_state b); injection H as <- <- <-; try (apply N; auto). split; [auto|]. split.
      { intros k' v' [X|[]]. injection X as <- <-. split; eauto. }
      split; [intros k' rc v' [X|[]]; discriminate|discriminate].
    + destruct (Frag_Model.o_state b); injection H as <- <- <-; apply N; auto.
    + destruct (Frag_Model.o_state b), (Frag_Model.a_done a); try (injection H as <- <- <-; apply N; auto).
      destruct (Frag_Model.table_op s _) as [[[s1 v1] ob1]| | |] eqn:E; try discriminate. cbn [obind] in H. apply table_only in E. injection H as <- <- <-. apply facts_only; auto.
  - destruct (Frag_Model.fragDataUnlock s o) as [[s1 ob1]| | |] eqn:E; try discriminate. cbn [obind] in H. apply unlock_only in E. injection H as <- <- <-. apply facts_only; auto.
  - assert (G : forall x, (forall k rc v, x <> Frag_Model.Returned k rc v) -> (forall k v, x <> Frag_Model.Accepted k v) ->
      facts (Frag_Model.PGive c l) c Frag_Model.Idle (x :: Frag_Model.ret c 0 None)).
    { intros x X1 X2. split; [congruence|]. split; [intros k v [Y|[Y|[]]]; [destruct (X2 _ _ Y)|discriminate]|].
      split; [intros k rc v [Y|[Y|[]]]; [destruct (X1 _ _ _ Y)|injection Y as <- <- <-; auto]|]. intros _. split; auto.
      intros k rc v [Y|[Y|[]]]; [destruct (X1 _ _ _ Y)|congruence]. }
    destruct c as [now k v [|]|now k|now k d]; injection H as <- <- <-; apply G; discriminate.
  - destruct (Frag_Model.oget _ o) as [b|]; [|discriminate].
    destruct (Frag_Model.o_state b), c as [now k v want|now k|now k d]; try destruct (_ <? _); injection H as <- <- <-; apply N; auto.
  - destruct (Frag_Model.oget _ o) as [b|]; [|discriminate]. destruct (Frag_Model.o_val b); [|discriminate]. injection H as <- <- <-. apply N; auto.
  - destruct c as [now k v want|now k|now k d]; try discriminate. destruct (_ <=? 0); injection H as <- <- <-; apply N; auto.
  - destruct (Frag_Model.oget _ o) as [b|]; [|discriminate]. injection H as <- <- <-. apply N; auto.
  - destruct (Frag_Model.fragDataUnlock s o) as [[s1 ob1]| | |] eqn:E; try discriminate. cbn [obind] in H. apply unlock_only in E. injection H as <- <- <-. apply facts_only; auto.
  - injection H as <- <- <-. apply (facts_ret _ c [_] (-1) None); [|discriminate]. intros x [<-|[]]. eauto.
  - destruct (Frag_Model.oget _ o) as [b|]; [|discriminate]. destruct (Frag_Model.o_state b).
    + destruct (Frag_Model.o_val b); [|discriminate]. injection H as <- <- <-. apply N; auto.
    + injection H as <- <- <-. split; [auto|]. split; [intros k v [X|[]]; discriminate|]. split; [intros k rc v [X|[]]; discriminate|discriminate].
    + injection H as <- <- <-. apply N; auto.
  - injection H as <- <- <-. apply N; auto.
  - destruct (Frag_Model.fragDataUnlock s o) as [[s1 ob1]| | |] eqn:E; try discriminate. cbn [obind] in H. apply unlock_only in E. injection H as <- <- <-.
    apply facts_ret; auto; discriminate.
Qed.
Lemma finish_facts g n : forall s p a s' ob, Frag_Model.finish n g s p a = Ok (s', ob) ->
  (forall k rc v, In (Frag_Model.Returned k rc v) ob -> k = Frag_Model.c_k (pcall p (Frag_Model.a_call a))) /\
  (forall k v, In (Frag_Model.Accepted k v) ob -> (exists now w, pcall p (Frag_Model.a_call a) = Frag_Model.CFirst now k v w) /\
     forall k' rc v', In (Frag_Model.Returned k' rc v') ob -> rc = 0) /\
  (giving p = true -> forall k rc v, In (Frag_Model.Returned k rc v) ob -> rc = 0) /\
  (forall w0 tr, Frag_Spec.exec g w0 tr (Frag_Model.mkWorld s [p]) -> Frag_Spec.exec g w0 (tr ++ ob) (Frag_Model.mkWorld s' [Frag_Model.Idle])).
Proof.
  induction n as [|n IH]; intros s p a s' ob H; cbn [Frag_Model.finish] in H; [discriminate|].
  destruct (Frag_Model.tstep g s p a) as [[[s1 p1] ob1]| | |] eqn:E; try discriminate. cbn [obind] in H.
  destruct (tstep_facts _ _ _ _ _ _ _ E) as (A & B & C & D).
  assert (X : forall w0 tr, Frag_Spec.exec g w0 tr (Frag_Model.mkWorld s [p]) -> Frag_Spec.exec g w0 (tr ++ ob1) (Frag_Model.mkWorld s1 [p1])).
  { intros w0 tr Y. eapply Frag_Spec.ex_step; [exact Y|]. instantiate (1 := Frag_Model.LThread 0 a). cbn. rewrite E. reflexivity. }
  assert (K : p1 = Frag_Model.Idle \/ p1 <> Frag_Model.Idle) by (destruct p1; auto; right; discriminate). destruct K as [->|K].
  { injection H as <- <-. split; [intros k rc v Y; apply (C _ _ _ Y)|]. split; [|split; [intros Y; apply D; auto|auto]].
    intros k v Y. destruct (B _ _ Y) as (Y1 & Y2). discriminate. }
  assert (H' : (do y <- Frag_Model.finish n g s1 p1 a; let '(s2, ob2) := y in Ok (s2, ob1 ++ ob2)) = Ok (s', ob)) by (destruct p1; auto; congruence).
  destruct (Frag_Model.finish n g s1 p1 a) as [[s2 ob2]| | |] eqn:E2; try discriminate. cbn [obind] in H'. injection H' as <- <-.
  destruct (IH _ _ _ _ _ E2) as (A2 & B2 & C2 & D2). rewrite (A K) in A2, B2.
  assert (NR : forall k rc v, ~ In (Frag_Model.Returned k rc v) ob1) by (intros k rc v Y; destruct (C _ _ _ Y); congruence).
  split; [|split; [|split]].
  - intros k rc v Y. apply in_app_or in Y. destruct Y as [Y|Y]; [destruct (NR _ _ _ Y)|eauto].
  - intros k v Y. apply in_app_or in Y. destruct Y as [Y|Y].
    + destruct (B _ _ Y) as (Y1 & Y2). split; auto. intros k' rc v' Z0. apply in_app_or in Z0. destruct Z0 as [Z0|Z0]; [destruct (NR _ _ _ Z0)|eauto].
    + destruct (B2 _ _ Y) as (Y1 & Y2). split; auto. intros k' rc v' Z0. apply in_app_or in Z0. destruct Z0 as [Z0|Z0]; [destruct (NR _ _ _ Z0)|eauto].
  - intros G k rc v Y. destruct (D G) as ([D1|D1] & _); [congruence|]. apply in_app_or in Y. destruct Y as [Y|Y]; [destruct (NR _ _ _ Y)|eauto].
  - intros w0 tr Y. rewrite app_assoc. apply D2, X, Y.
Qed.
Lemma call_facts g s c d s' ob : Frag_Model.call_op g s c d = Ok (s', ob) ->
  (forall k rc v, In (Frag_Model.Returned k rc v) ob -> k = Frag_Model.c_k c) /\
  (forall k v, In (Frag_Model.Accepted k v) ob -> (exists now w, c = Frag_Model.CFirst now k v w) /\ forall k' rc v', In (Frag_Model.Returned k' rc v') ob -> rc = 0) /\
  (forall w0 tr, Frag_Spec.exec g w0 tr (Frag_Model.mkWorld s [Frag_Model.Idle]) -> Frag_Spec.exec g w0 (tr ++ ob) (Frag_Model.mkWorld s' [Frag_Model.Idle])).
Proof.
  unfold Frag_Model.call_op. generalize 12%nat. intros n H. destruct (finish_facts _ _ _ _ _ _ _ H) as (A & B & _ & D). auto.
Qed.

(** ** Packets *)
Definition tiered (h : hconf) (x : Z) : Prop := exists r own, h_tier h = Some (r, own) /\ 0 <= x /\ x <> own.
Definition anycalls (h : hconf) (enc now : Z) (done : bool) (eth : Z) (data : list Z) : calls :=
  mkC (h_frag h) now done (fun _ => True)
    (fun x => forall d, frag_of enc eth data false d -> tiered h x)
    (fun K => exists d, frag_of enc eth data true d /\ K = dkey d)
    (fun K => exists d, frag_of enc eth data false d /\ K = dkey d).
Lemma any_conditions h enc now done eth data : conditions (anycalls h enc now done eth data) h enc eth data (fun _ => True).
Proof.
  constructor; cbn [anycalls c_first c_other c_quiet]; eauto.
  - intros k local b d F S D L. unfold tier. destruct (h_tier h) as [[r own]|] eqn:ET; [|apply L; auto].
    assert (Q : forall fw, fok (anycalls h enc now done eth data) (if (0 <=? fw) && negb (fw =? own) then Ret (Verdict fw) else local)).
    { intros fw. destruct (Z.leb_spec 0 fw) as [P|P]; [|apply L; auto]. destruct (Z.eqb_spec fw own) as [O|O]; [apply L; auto|]. intros d' _. exists r, own. auto. }
    apply fok_read; intros; apply Q.
  - intros x H _ d F. destruct (H _ _ F); discriminate.
  - intros x H d F. destruct (H _ _ F).
Qed.
(** Packet [j] is a first fragment of [d] and was sent to [v]. *)
Definition steered_to (enc : Z) (pk : list prog) (arr : list (Z * list Z)) (d : dgram) (v : Z) : Prop :=
  exists j eth data, znth arr j = Some (eth, data) /\ frag_of enc eth data true d /\ znth pk j = Some (Ret (Verdict v)).
Definition J (h : hconf) (enc : Z) (ft : Frag_Model.sys) (pk : list prog) (arr : list (Z * list Z)) : Prop :=
  (exists tr, Frag_Spec.exec (h_frag h) (Frag_Model.start (h_frag h) 1) tr (Frag_Model.mkWorld ft [Frag_Model.Idle]) /\
     forall K v, In (Frag_Model.Accepted K v) tr -> exists d, dkey d = K /\ steered_to enc pk arr d v) /\
  zlen pk = zlen arr /\
  forall i p eth data, znth pk i = Some p -> znth arr i = Some (eth, data) ->
    (exists now done, fok (anycalls h enc now done eth data) p) \/
    exists x, p = Ret (Verdict x) /\ forall d, frag_of enc eth data false d -> x = -1 \/ steered_to enc pk arr d x \/ tiered h x.
Lemma znth_app2 {A} (l : list A) y i x : znth (l ++ [y]) i = Some x -> znth l i = Some x \/ i = zlen l /\ x = y.
Proof.
  intros H. pose proof (znth_some_range _ _ _ _ H) as R. unfold zlen in R. rewrite app_length in R. cbn in R.
  unfold znth in *. destruct (Z.ltb_spec i 0); [discriminate|]. destruct (Nat.lt_ge_cases (Z.to_nat i) (length l)) as [L|L].
  - rewrite nth_error_app1 in H; auto.
  - rewrite nth_error_app2 in H by lia. right. assert (Z.to_nat i = length l) as E by lia. rewrite E, Nat.sub_diag in H. cbn in H.
    split; [unfold zlen; lia|congruence].
Qed.
Lemma J_arrive h enc ft pk arr p now done eth data : J h enc ft pk arr -> fok (anycalls h enc now done eth data) p -> J h enc ft (pk ++ [p]) (arr ++ [(eth, data)]).
Proof.
  intros ((tr & X & A) & L & P) F.
  assert (M : forall d v, steered_to enc pk arr d v -> steered_to enc (pk ++ [p]) (arr ++ [(eth, data)]) d v).
  { intros d v (j & e & dt & Y1 & Y2 & Y3). exists j, e, dt. split; [apply znth_app_l; auto|]. split; auto. apply znth_app_l; auto. }
  split; [exists tr; split; auto; intros K v Y; destruct (A _ _ Y) as (d & E & S); eauto|].
  split; [unfold zlen in *; rewrite !app_length; cbn; lia|]. intros i q e dt Y1 Y2.
  destruct (znth_app2 _ _ _ _ Y1) as [Z1|(-> & ->)].
  - destruct (znth_app2 _ _ _ _ Y2) as [Z2|(-> & _)]; [|exfalso; apply znth_some_range in Z1; lia].
    destruct (P _ _ _ _ Z1 Z2) as [?|(x & -> & C)]; [auto|]. right. exists x. split; auto. intros d D. destruct (C _ D) as [?|[?|?]]; auto.
  - destruct (znth_app2 _ _ _ _ Y2) as [Z2|(_ & Z2)]; [exfalso; apply znth_some_range in Z2; lia|]. injection Z2 as -> ->. left. eauto.
Qed.
Lemma J_step h enc s pk arr i l f ev s' p' : Frag_Spec.conf_ok (h_frag h) -> J h enc (t_ft s) pk arr -> znth pk i = Some (Act l f) -> f s = Next ev s' p' ->
  J h enc (t_ft s') (zupd pk i p') arr.
Proof.
  intros G ((tr & X & A) & L & P) E1 E2. assert (RI : 0 <= i < zlen pk) by (eapply znth_some_range; eauto).
  assert (M : forall d v, steered_to enc pk arr d v -> steered_to enc (zupd pk i p') arr d v).
  { intros d v (j & e & dt & Y1 & Y2 & Y3). exists j, e, dt. split; [auto|]. split; auto. rewrite znth_zupd_neq; auto. intros ->. congruence. }
  assert (LL : zlen (zupd pk i p') = zlen arr) by (unfold zlen in *; rewrite zupd_length; auto).
  assert (REST : forall eth data, znth arr i = Some (eth, data) ->
     ((exists now done, fok (anycalls h enc now done eth data) p') \/
      exists x, p' = Ret (Verdict x) /\ forall d, frag_of enc eth data false d -> x = -1 \/ steered_to enc (zupd pk i p') arr d x \/ tiered h x) ->
     forall j p eth data, znth (zupd pk i p') j = Some p -> znth arr j = Some (eth, data) ->
    (exists now done, fok (anycalls h enc now done eth data) p) \/
    exists x, p = Ret (Verdict x) /\ forall d, frag_of enc eth data false d -> x = -1 \/ steered_to enc (zupd pk i p') arr d x \/ tiered h x).
  { intros e dt Y0 H j p e' dt' Y1 Y2. destruct (Z.eq_dec i j) as [<-|N].
    - rewrite znth_zupd_eq in Y1 by auto. assert (p = p') as -> by congruence. assert (e' = e /\ dt' = dt) as (-> & ->) by (split; congruence). exact H.
    - rewrite znth_zupd_neq in Y1 by auto. destruct (P _ _ _ _ Y1 Y2) as [?|(x & -> & C)]; [auto|]. right. exists x. split; auto.
      intros d D. destruct (C _ D) as [?|[?|?]]; auto. }
  destruct (znth arr i) as [[eth data]|] eqn:EA; [|exfalso; apply znth_none_range in EA; lia].
  specialize (REST _ _ eq_refl). destruct (P _ _ _ _ E1 EA) as [(now & done & F)|(x & Y & _)]; [|discriminate].
  specialize (F s Logic.I). rewrite E2 in F. destruct F as (_ & [(ET & F)|F]).
  - rewrite ET. split; [exists tr; split; auto; intros K v Y; destruct (A _ _ Y) as (d & E & S); eauto|]. split; auto. apply REST. left. eauto.
  - destruct F as [(K & v & ob & rc & val & (d & FD & ->) & E & R & ->)|(K & dat & ob & rc & val & x & (d & FD & ->) & E & R & -> & RX)]; cbn [anycalls c_conf c_time c_done] in E.
    + destruct (call_facts _ _ _ _ _ _ E) as (F1 & F2 & F3). split; [|split; auto].
      * exists (tr ++ ob). split; [apply F3; auto|]. intros K v' Y. apply in_app_or in Y. destruct Y as [Y|Y].
        -- destruct (A _ _ Y) as (d' & E' & S). eauto.
        -- destruct (F2 _ _ Y) as ((n & w & Y1) & Y2). injection Y1 as <- <- <- <-. exists d. split; auto. exists i, eth, data. split; auto. split; auto.
           destruct (retOf_in _ _ _ R) as (k & RI'). rewrite (Y2 _ _ _ RI'). rewrite znth_zupd_eq by auto. reflexivity.
      * apply REST. right. eexists. split; [reflexivity|]. intros d' FD'. destruct (frag_unique _ _ _ _ _ _ _ FD FD'); discriminate.
    + destruct (call_facts _ _ _ _ _ _ E) as (F1 & F2 & F3).
      assert (NA : forall k v, ~ In (Frag_Model.Accepted k v) ob) by (intros k v Y; destruct (F2 _ _ Y) as ((n & w & Y1) & _); discriminate).
      split; [|split; auto].
      * exists (tr ++ ob). split; [apply F3; auto|]. intros K v' Y. apply in_app_or in Y. destruct Y as [Y|Y]; [|destruct (NA _ _ Y)].
        destruct (A _ _ Y) as (d' & E' & S). eauto.
      * apply REST. right. exists x. split; auto. intros d' FD'. destruct (frag_unique _ _ _ _ _ _ _ FD FD') as (_ & ->).
        destruct RX as [(-> & ->)|(_ & ->)]; [|auto]. destruct (retOf_in _ _ _ R) as (k & RI'). rewrite (F1 _ _ _ RI') in RI'. cbn [Frag_Model.c_k] in RI'.
        apply in_split in RI'. destruct RI' as (o1 & o2 & RI').
        pose proof (Frag2_Proofs.returned_accepted (h_frag h) 1 (tr ++ ob) _ (tr ++ o1) (dkey d) x o2 G (F3 _ _ X) ltac:(rewrite RI', <- app_assoc; reflexivity)) as Y.
        apply in_app_or in Y. destruct Y as [Y|Y]; [|exfalso; apply (NA (dkey d) x); rewrite RI'; apply in_or_app; auto].
        destruct (A _ _ Y) as (d' & E' & S). right. left. destruct S as (j & e & dt & S1 & S2 & S3).
        assert (d' = d) as -> by (apply (dkey_inj _ _ _ _ _ _ _ _ _ _ S2 FD E')). apply M. exists j, e, dt. auto.
Qed.
Lemma arrivals_app a b : arrivals (a ++ b) = arrivals a ++ arrivals b.
Proof. apply flat_map_app. Qed.
Lemma larrivals_app a b : larrivals (a ++ b) = larrivals a ++ larrivals b.
Proof. apply flat_map_app. Qed.
(** Commands do not touch the fragment table. *)
Fixpoint keeps (p : prog) : Prop :=
  match p with
  | Ret _ => True
  | Act _ f => forall s, keepsr s (f s)
  end
with keepsr (s : state) (r : result) : Prop :=
  match r with
  | Next _ s' p => t_ft s' = t_ft s /\ keeps p
  | _ => True
  end.
Lemma keeps_act l f : (forall s, keepsr s (f s)) -> keeps (Act l f).
Proof. auto. Qed.
Lemma keeps_stop : keeps stop.
Proof. cbn. auto. Qed.
Lemma keeps_release l a k : keeps k -> keeps (release l a k).
Proof.
  intros K. unfold release. destruct (a =? 0); auto. apply keeps_act. intros s. destruct (deref s a) as [o|]; [|exact I].
  destruct (_ <? 0); [exact I|]. destruct (_ =? 0); (split; [reflexivity|]); [|auto]. apply keeps_act. clear s o. intros s.
  destruct (deref s a) as [o|]; [|exact I]. destruct (unlink _ _ _) as [l'|]; [|exact I]. split; [reflexivity|]. apply keeps_act.
  clear s o l'. intros s. destruct (deref s a) as [o|]; [|exact I]. split; [reflexivity|auto].
Qed.
Lemma keeps_find t k : (forall a, keeps (k a)) -> keeps (findOrCreate t k).
Proof.
  intros K. destruct t as [t|]; [|apply K]. apply keeps_act. intros s. destruct (search s (t_list s) t) as [| |a]; [exact I| |].
  - destruct (t_shm s t); (split; [reflexivity|apply K]).
  - destruct (lockRef s a) as [s'|] eqn:E; [|exact I]. cbn [keepsr]. split; [apply (lockRef_ft _ _ _ E)|auto].
Qed.
Lemma keeps_define L a k : keeps k -> keeps (define L a k).
Proof.
  intros K. apply keeps_act. intros s. destruct (flowDefine L (t_set s) a) as [[[e|] set]| | |]; try exact I; (split; [reflexivity|]); [exact I|auto].
Qed.
Lemma keeps_set L c a : keeps (setFlow L c a).
Proof.
  unfold setFlow. destruct (a =? 0); [exact I|]. destruct (c_name c) as [n|]; [|apply keeps_stop].
  assert (M : keeps (define L (cmdArgs c n a) (Ret (Reply "OK")))) by (apply keeps_define; exact I).
  destruct (c_udpencap c =? 0); auto. destruct (c_protocols c) as [[|p [|q r]]|]; try exact I; try apply keeps_stop.
  destruct (caseeq p _); [|exact I]. destruct (1021 <? zlen n); [apply keeps_stop|]. apply keeps_define. auto.
Qed.
Lemma keeps_command L c : keeps (command L c).
Proof.
  unfold command. destruct (c_action c) as [a|]; [|exact I]. destruct (prefix _ _); [exact I|].
  destruct (streq a (str "set")).
  { unfold cmd_set. assert (FR : keeps (findOrCreate (c_target c) (setFlow L c))) by (apply keeps_find; intros; apply keeps_set).
    apply keeps_act. intros s. destruct (c_name c) as [n|]; [|destruct (t_set s); [split; auto|exact I]].
    destruct (findName _ _) as [f|]; [|split; auto]. destruct (lockRef s (f_ref f)) as [s'|] eqn:E; [|exact I].
    cbn [keepsr]. split; [apply (lockRef_ft _ _ _ E)|]. apply keeps_release. destruct (negb _); [exact I|].
    destruct (c_target c) as [t|]; [|apply keeps_stop]. apply keeps_act. clear s s' E. intros s. destruct (deref s (f_ref f)) as [o|]; [|exact I].
    destruct (streq t _); (split; [reflexivity|]); [apply keeps_set|]. apply keeps_find. intros a'. destruct (a' =? 0); [exact I|]. apply keeps_release, keeps_set. }
  destruct (streq a (str "delete")).
  { unfold cmd_delete. destruct (c_name c) as [n|]; [|exact I]. apply keeps_act. intros s. destruct (flowDelete (t_set s) n) as [f set].
    split; [reflexivity|]. apply keeps_release. destruct (0 <? _); [|exact I]. destruct (1021 <? _); [apply keeps_stop|]. apply keeps_act. clear s.
    intros s. split; [reflexivity|exact I]. }
  destruct (streq a (str "list")).
  { apply keeps_act. intros s. destruct (forallb _ _); [split; [reflexivity|exact I]|exact I]. }
  destruct (streq a (str "list-names")); exact I.
Qed.
Lemma J_start h enc mem set objs l shm : J h enc (t_ft (mkSt set objs l (Frag_Model.fragTableCreate (h_frag h)) shm mem [])) [] [].
Proof.
  split; [exists []; split; [constructor|intros K v []]|]. split; [reflexivity|]. intros i p eth data X. unfold znth in X. destruct (i <? 0); [discriminate|].
  destruct (Z.to_nat i); discriminate.
Qed.
Lemma J_flowlb h shm mem tr w : Frag_Spec.conf_ok (h_frag h) -> exec h anything (start h shm mem) tr w ->
  J h 0 (t_ft (w_st w)) (w_pk w) (arrivals tr) /\ keeps (w_flow w).
Proof.
  intros G H. remember (start h shm mem) as w0 eqn:E0. induction H as [w|w0 tr w1 m ev w2 H IH M E]; subst.
  - split; [apply J_start|exact I].
  - destruct (IH eq_refl) as (JJ & V). rewrite arrivals_app. destruct m as [now done eth data|c| |j|shm' mem']; cbn [step] in E; cbn [arrivals flat_map fst app].
    + injection E as <- <-. split; [|exact V]. cbn [w_st w_pk]. eapply J_arrive; eauto. eapply packet_fok; [|apply any_conditions]. split; [|split]; reflexivity.
    + destruct (idle (w_flow w1)); [|discriminate]. injection E as <- <-. rewrite app_nil_r. split; auto. apply keeps_command.
    + destruct (w_flow w1) as [r|l f] eqn:EW; [discriminate|]. destruct (f (w_st w1)) as [ev' s' p'| |] eqn:EF; try discriminate. injection E as <- <-. rewrite app_nil_r. cbn [w_st w_pk w_flow].
      cbn [keeps] in V. specialize (V (w_st w1)). rewrite EF in V. destruct V as (V1 & V2). rewrite V1. auto.
    + destruct (znth (w_pk w1) j) as [[r|l f]|] eqn:EJ; try discriminate. destruct (f (w_st w1)) as [ev' s' p'| |] eqn:EF; try discriminate.
      injection E as <- <-. rewrite app_nil_r. cbn [w_st w_pk w_flow]. split; auto. eapply J_step; eauto.
    + injection E as <- <-. rewrite app_nil_r. auto.
Qed.
Lemma J_lb g mem tr w : Frag_Spec.conf_ok (h_frag (l_h g)) -> lexec g (lstart g mem) tr w -> J (l_h g) (l_encap g) (t_ft (lw_st w)) (lw_pk w) (larrivals tr).
Proof.
  intros G H. remember (lstart g mem) as w0 eqn:E0. induction H as [w|w0 tr w1 m w2 H IH E]; subst; [apply J_start|].
  specialize (IH eq_refl). rewrite larrivals_app. destruct m as [now done eth data|j|mem']; cbn [lstep] in E; cbn [larrivals flat_map app].
  - injection E as <-. cbn [lw_st lw_pk]. eapply J_arrive; eauto. eapply lb_fok; [|apply any_conditions]. split; [|split]; reflexivity.
  - destruct (znth (lw_pk w1) j) as [[r|l f]|] eqn:EJ; try discriminate. destruct (f (lw_st w1)) as [ev' s' p'| |] eqn:EF; try discriminate.
    injection E as <-. rewrite app_nil_r. cbn [lw_st lw_pk]. eapply J_step; eauto.
  - injection E as <-. rewrite app_nil_r. exact IH.
Qed.
Lemma claim_of h enc ft pk arr i x eth data d : J h enc ft pk arr -> znth pk i = Some (Ret (Verdict x)) -> znth arr i = Some (eth, data) ->
  frag_of enc eth data false d -> x = -1 \/ steered_to enc pk arr d x \/ tiered h x.
Proof.
  intros (_ & _ & P) X Y F. destruct (P _ _ _ _ X Y) as [(now & done & Q)|(x' & E & C)]; [right; right; apply (Q _ F)|].
  assert (x' = x) as -> by congruence. auto.
Qed.
Lemma interleaved_flowlb h shm mem tr w i x eth data d : Frag_Spec.conf_ok (h_frag h) -> exec h anything (start h shm mem) tr w ->
  znth (w_pk w) i = Some (Ret (Verdict x)) -> znth (arrivals tr) i = Some (eth, data) -> frag_of 0 eth data false d ->
  x = -1 \/ (exists j eth data, znth (arrivals tr) j = Some (eth, data) /\ frag_of 0 eth data true d /\ znth (w_pk w) j = Some (Ret (Verdict x))) \/
  exists r own, h_tier h = Some (r, own) /\ 0 <= x /\ x <> own.
Proof. intros G H. destruct (J_flowlb _ _ _ _ _ G H) as (JJ & _). exact (claim_of _ _ _ _ _ _ _ _ _ _ JJ). Qed.
Lemma interleaved_lb g mem tr w i x eth data d : Frag_Spec.conf_ok (h_frag (l_h g)) -> lexec g (lstart g mem) tr w ->
  znth (lw_pk w) i = Some (Ret (Verdict x)) -> znth (larrivals tr) i = Some (eth, data) -> frag_of (l_encap g) eth data false d ->
  x = -1 \/ (exists j eth data, znth (larrivals tr) j = Some (eth, data) /\ frag_of (l_encap g) eth data true d /\ znth (lw_pk w) j = Some (Ret (Verdict x))) \/
  exists r own, h_tier (l_h g) = Some (r, own) /\ 0 <= x /\ x <> own.
Proof. intros G H. pose proof (J_lb _ _ _ _ G H) as JJ. exact (claim_of _ _ _ _ _ _ _ _ _ _ JJ). Qed.
