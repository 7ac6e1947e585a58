(** Trace flows (C66). *)
From Coq Require Import String.
From Verif Require Import Base Lists Cstr_Model Util_Spec Util_Proofs IpKey_Model IpKey_Spec IpKey_Proofs Flow_Model Flow_Spec Flow2_Proofs Flow3_Proofs
  Remote_Model FlowLb_Model FlowLb_Proofs Lb2_Proofs Requests_Spec Requests_Proofs Print_Model Print_Spec Print4_Proofs Trace_Model Trace_Spec.

(** ** Requests *)
Lemma asked_inv tr m ev n o : asked (tr ++ [(m, ev)]) n o ->
  (exists c, m = TRequest c /\ ev = NoAnswer /\ is_action c "trace-set" /\ c_name c = Some n /\ o = Some c) \/
  (exists c, m = TRequest c /\ is_action c "trace-delete" /\ c_name c = Some n /\ o = None) \/
  (asked tr n o /\ forall c, m = TRequest c -> c_name c = Some n -> (is_action c "trace-set" -> ev <> NoAnswer) /\ ~ is_action c "trace-delete").
Proof.
  intros H. inversion H as [n' E|tr' c n' A N E|tr' c n' ev' A N E|tr' m' ev' n' o' A N E]; subst.
  - destruct tr; discriminate.
  - apply app_inj_tail in E. destruct E as (_ & E). injection E as <- <-. left. exists c. auto.
  - apply app_inj_tail in E. destruct E as (_ & E). injection E as <- <-. right; left. exists c. auto.
  - apply app_inj_tail in E. destruct E as (-> & E). injection E as <- <-. right; right. auto.
Qed.
Lemma actions_differ c : is_action c "trace-set" -> is_action c "trace-delete" -> False.
Proof. unfold is_action. intros A B. rewrite A in B. discriminate. Qed.
Lemma asked_fun tr : forall n o o', asked tr n o -> asked tr n o' -> o = o'.
Proof.
  induction tr as [|[m ev] tr IH] using rev_ind; intros n o o' A B.
  - inversion A as [? E|? ? ? ? ? E|? ? ? ? ? ? E|? ? ? ? ? ? ? E]; try (symmetry in E; apply app_eq_nil in E; destruct E; discriminate);
    try (apply app_eq_nil in E; destruct E; discriminate).
    inversion B as [? E2|? ? ? ? ? E2|? ? ? ? ? ? E2|? ? ? ? ? ? ? E2]; try (apply app_eq_nil in E2; destruct E2; discriminate). auto.
  - apply asked_inv in A, B.
    destruct A as [(c & A1 & A2 & A3 & A4 & A5)|[(c & A1 & A2 & A3 & A4)|(A1 & A2)]];
    destruct B as [(d & B1 & B2 & B3 & B4 & B5)|[(d & B1 & B2 & B3 & B4)|(B1 & B2)]]; subst; try congruence; eauto.
    + exfalso. injection B1 as <-. eapply actions_differ; eauto.
    + exfalso. destruct (B2 c eq_refl A4) as (X & _). apply X; auto.
    + exfalso. injection B1 as <-. eapply actions_differ; eauto.
    + exfalso. destruct (B2 c eq_refl A3) as (_ & X). auto.
    + exfalso. destruct (A2 d eq_refl B4) as (X & _). apply X; auto.
    + exfalso. destruct (A2 d eq_refl B3) as (_ & X). auto.
Qed.
Lemma asked_other tr m ev n o : asked tr n o -> (forall c, m = TRequest c -> c_name c <> Some n) -> asked (tr ++ [(m, ev)]) n o.
Proof. intros A H. apply asked_before; auto. intros c E N. exfalso. eapply H; eauto. Qed.

(** ** The invariant *)
Definition agreed (tr : list (tmove * tevent)) (w : tworld) (now : chars -> option fargs) : Prop :=
  forall n, match now n with
            | Some a => exists c, asked tr n (Some c) /\ c_name c = Some n /\ a = cmdArgs c n (a_ref a) /\ nameAt w (a_ref a) = Some n
            | None => asked tr n None
            end.
Definition TI (L : libc) (tr : list (tmove * tevent)) (w : tworld) : Prop :=
  exists now, stands L (x_set w) now /\ agreed tr w now /\
    (x_free w <> 0 -> nameAt w (x_free w) <> None /\ forall n a, now n = Some a -> a_ref a <> x_free w).

Lemma nameAt_new w n set fr pk : nameAt (mkTW (x_names w ++ [Some n]) set fr pk) (zlen (x_names w ++ [Some n])) = Some n.
Proof.
  unfold nameAt. cbn [x_names]. replace (zlen (x_names w ++ [Some n]) - 1) with (zlen (x_names w)).
  - rewrite znth_end. reflexivity.
  - rewrite Match_Proofs.zlen_app. cbn. lia.
Qed.
Lemma nameAt_old w n set fr pk a m : nameAt w a = Some m -> nameAt (mkTW (x_names w ++ [Some n]) set fr pk) a = Some m.
Proof.
  unfold nameAt. cbn [x_names]. destruct (znth (x_names w) (a - 1)) as [o|] eqn:E; [|discriminate].
  rewrite (znth_app_l _ _ _ _ E). auto.
Qed.
Lemma nameAt_range w a m : nameAt w a = Some m -> 1 <= a <= zlen (x_names w).
Proof.
  unfold nameAt. destruct (znth (x_names w) (a - 1)) as [o|] eqn:E; [|discriminate]. intros _. apply znth_some_range in E. lia.
Qed.
Lemma nameAt_freed w a b set fr pk m : a <> b -> nameAt w b = Some m -> nameAt (mkTW (zupd (x_names w) (a - 1) None) set fr pk) b = Some m.
Proof. intros N. unfold nameAt. cbn [x_names]. rewrite znth_zupd_neq; [auto|lia]. Qed.

Lemma stands_inv L set now : libc_ok L -> stands L set now -> Inv L set now.
Proof. intros HL (ops & ans & R & ->). destruct (run_inv L ops HL [] _ set ans (inv_nil L) R) as (I & _). exact I. Qed.

(** A request that leaves the trace flows alone *)
Lemma TI_quiet L tr w w' m ev : TI L tr w -> x_set w' = x_set w -> x_names w' = x_names w -> x_free w' = x_free w ->
  (forall c n, m = TRequest c -> c_name c = Some n -> (is_action c "trace-set" -> ev <> NoAnswer) /\ (is_action c "trace-delete" -> asked tr n None)) -> TI L (tr ++ [(m, ev)]) w'.
Proof.
  intros (now & S & A & F) E1 E2 E3 Q. exists now. rewrite E1, E3. unfold nameAt. rewrite E2. split; auto. split; auto. intros n. specialize (A n). unfold nameAt in *. rewrite E2.
  destruct (now n) as [a|] eqn:EN.
  - destruct A as (c & A1 & A2 & A3 & A4). exists c. split; auto. apply asked_before; auto. intros c' E N. destruct (Q c' n E N) as (Q1 & Q2). split; auto.
    intros D. pose proof (asked_fun _ _ _ _ A1 (Q2 D)). discriminate.
  - destruct m as [c| | |]; try (apply asked_before; auto; discriminate).
    destruct (c_name c) as [k|] eqn:EK; [|apply asked_other; auto; intros c' E; injection E as <-; congruence].
    destruct (streq k n) eqn:EQ.
    + apply streq_eq in EQ. subst k. destruct (Q c n eq_refl EK) as (Q1 & Q2).
      destruct (c_action c) as [act|] eqn:AC.
      * destruct (streq act (str "trace-delete")) eqn:ED.
        -- apply streq_eq in ED. apply asked_delete; auto. unfold is_action. congruence.
        -- apply asked_before; auto. intros c' E _. injection E as <-. split; auto. unfold is_action. rewrite AC. intros X. injection X as ->.
           rewrite streq_refl in ED. discriminate.
      * apply asked_before; auto. intros c' E _. injection E as <-. split; auto. unfold is_action. congruence.
    + apply asked_other; auto. intros c' E. injection E as <-. intros X. rewrite EK in X. injection X as ->. rewrite streq_refl in EQ. discriminate.
Qed.

Lemma TI_step L P tr w m ev w' : libc_ok L -> TI L tr w -> tstep L P w m = Some (TCont w' ev) -> TI L (tr ++ [(m, ev)]) w'.
Proof.
  intros HL I H. destruct m as [c| |id eth data|id]; cbn [tstep] in H.
  - destruct (Z.eqb_spec (x_free w) 0) as [F0|]; [|discriminate]. injection H as H. unfold traceRequest in H.
    destruct (c_action c) as [act|] eqn:AC; [|discriminate].
    destruct (streq act (str "trace-set")) eqn:ES.
    { apply streq_eq in ES. subst act. destruct (c_name c) as [n|] eqn:EN; [|discriminate].
      destruct I as (now & S & A & F).
      destruct (flowDefine L (x_set w) (cmdArgs c n (zlen (x_names w ++ [Some n])))) as [[[e|] set]| | |] eqn:ED; try discriminate; injection H as <- <-.
      - exists (in_force now [Define (cmdArgs c n (zlen (x_names w ++ [Some n])))] [Defined (Some e)]). cbn [x_set x_names x_free x_pk].
        split; [eapply stands_run; [eauto|]; apply run_define1; eauto|]. cbn [in_force]. split; [|intros X; contradiction].
        intros k. specialize (A k). destruct (now k) as [a|] eqn:EK.
        + destruct A as (d & A1 & A2 & A3 & A4). exists d. split; [|split; [auto|split; [auto|apply nameAt_old; auto]]].
          apply asked_before; auto. intros c' E N. injection E as <-. split; [discriminate|]. unfold is_action. rewrite AC. discriminate.
        + apply asked_before; auto. intros c' E N. injection E as <-. split; [discriminate|]. unfold is_action. rewrite AC. discriminate.
      - exists (in_force now [Define (cmdArgs c n (zlen (x_names w ++ [Some n])))] [Defined None]). cbn [x_set x_names x_free x_pk].
        split; [eapply stands_run; [eauto|]; apply run_define1; eauto|]. cbn [in_force]. split; [|intros X; contradiction].
        intros k. change (a_name (cmdArgs c n (zlen (x_names w ++ [Some n])))) with n. destruct (streq k n) eqn:EQ.
        + apply streq_eq in EQ. subst k. exists c. split; [apply asked_set; auto|]. split; auto. split; [reflexivity|]. apply nameAt_new.
        + specialize (A k). assert (NK : c_name c <> Some k) by (rewrite EN; intros X; injection X as ->; rewrite streq_refl in EQ; discriminate).
          destruct (now k) as [a|] eqn:EK.
          * destruct A as (d & A1 & A2 & A3 & A4). exists d. split; [|split; [auto|split; [auto|apply nameAt_old; auto]]].
            apply asked_other; auto. intros c' E. injection E as <-. auto.
          * apply asked_other; auto. intros c' E. injection E as <-. auto. }
    assert (NS : ~ is_action c "trace-set").
    { unfold is_action. rewrite AC. intros X. injection X as ->. rewrite streq_refl in ES. discriminate. }
    destruct (streq act (str "trace-delete")) eqn:ED.
    { apply streq_eq in ED. subst act. destruct (c_name c) as [n|] eqn:EN.
      2:{ injection H as <- <-. apply (TI_quiet L tr w w); auto. intros c' n E N. injection E as <-. congruence. }
      destruct I as (now & S & A & F). pose proof (stands_inv L _ _ HL S) as INV.
      pose proof (inv_delete L (x_set w) now n INV) as K.
      assert (R : run L (x_set w) [Delete n] = Ok (snd (flowDelete (x_set w) n),
          [Deleted (match fst (flowDelete (x_set w) n) with None => None | Some f => Some (f_ref f, f_udpencap f) end)])).
      { cbn [run]. destruct (flowDelete (x_set w) n) as [f s]. reflexivity. }
      pose proof (stands_run L _ now _ _ _ S R) as S'. cbn [in_force] in S'.
      destruct (flowDelete (x_set w) n) as [f set] eqn:EF. cbn [fst snd] in *. destruct K as (K1 & K2).
      destruct f as [f|]; injection H as <- <-.
      - destruct (now n) as [b|] eqn:EB; [|discriminate]. injection K2 as R1 _.
        pose proof (A n) as An. rewrite EB in An. destruct An as (d & A1 & A2 & A3 & A4).
        exists (fun k => if streq k n then None else now k). split; [exact S'|]. split.
        + intros k. destruct (streq k n) eqn:EQ.
          * apply streq_eq in EQ. subst k. apply asked_delete; auto.
          * specialize (A k). assert (NK : c_name c <> Some k) by (rewrite EN; intros X; injection X as ->; rewrite streq_refl in EQ; discriminate).
            destruct (now k) as [a|]; [destruct A as (d' & D1 & D2 & D3 & D4); exists d'; split; [|auto]|];
              apply asked_other; auto; intros c' E; injection E as <-; auto.
        + intros _. cbn [x_free]. change (nameAt {| x_names := x_names w; x_set := set; x_free := f_ref f; x_pk := x_pk w |}) with (nameAt w). rewrite R1, A4. split; [discriminate|].
          intros k a E2. destruct (streq k n) eqn:EQ; [discriminate|]. pose proof (A k) as Ak. rewrite E2 in Ak. destruct Ak as (d' & _ & _ & _ & D4).
          intros X. rewrite X, A4 in D4. injection D4 as ->. rewrite streq_refl in EQ. discriminate.
      - apply (TI_quiet L tr w w); auto; [exists now; auto|]. intros c' k E N. injection E as <-. rewrite EN in N. injection N as <-.
        split; [contradiction|]. intros _. specialize (A n). destruct (now n); [discriminate|auto]. }
    assert (ND : ~ is_action c "trace-delete").
    { unfold is_action. rewrite AC. intros X. injection X as ->. rewrite streq_refl in ED. discriminate. }
    assert (Q : w' = w).
    { destruct (streq act (str "trace-list")); [destruct (flowSetPrint P (x_set w) (c_name c)); congruence|].
      destruct (streq act (str "trace-list-names")); congruence. }
    subst w'. apply (TI_quiet L tr w w); auto. intros c' k E _. injection E as <-. split; contradiction.
  - destruct (Z.eqb_spec (x_free w) 0) as [|F0]; [discriminate|].
    destruct (nameAt w (x_free w)) as [n|] eqn:EN; [|discriminate]. injection H as <- <-.
    destruct I as (now & S & A & F). destruct (F F0) as (_ & F2). exists now. split; auto. split.
    + intros k. specialize (A k). destruct (now k) as [a|] eqn:EK; [|apply asked_before; auto; discriminate].
      destruct A as (d & A1 & A2 & A3 & A4). exists d. split; [apply asked_before; auto; discriminate|]. split; auto. split; auto.
      apply nameAt_freed; auto. specialize (F2 _ _ EK). congruence.
    + cbn [x_free]. congruence.
  - destruct (existsb _ _); [discriminate|]. injection H as H. unfold traceLookup in H.
    assert (Q : x_set w' = x_set w /\ x_names w' = x_names w /\ x_free w' = x_free w).
    { destruct (getHashKey _ _ _ _) as [[[[rc k] fi]|]| | |]; try discriminate.
      - destruct (_ =? 2); [injection H as <- _; auto|]. destruct (flowLookup _ _ _ _ _ _) as [[a u]| | |]; try discriminate.
        destruct (a =? 0); injection H as <- _; auto.
      - injection H as <- _. auto. }
    destruct Q as (Q1 & Q2 & Q3). apply (TI_quiet L tr w w'); auto; discriminate.
  - destruct (find _ _) as [p|]; [|discriminate]. destruct (nameAt w (fd_ref p)); [|discriminate].
    destruct (printIcmp _ _); try discriminate. injection H as <- <-. eapply TI_quiet; eauto; discriminate.
Qed.
Lemma TI_exec L P may tr w : libc_ok L -> texec L P may tr w -> TI L tr w.
Proof.
  intros HL. induction 1 as [|tr w m ev w' X IH M H].
  - exists (fun _ => None). split; [exact (stands_nil L)|]. split; [intros n; constructor|]. intros H; contradiction.
  - eapply TI_step; eauto.
Qed.

(** ** Executions in parts *)
Lemma texec_split L P may tr2 : forall tr1 w, texec L P may (tr1 ++ tr2) w -> exists w1, texec L P may tr1 w1 /\
  (tr2 = [] -> w = w1).
Proof.
  induction tr2 as [|x tr2 IH] using rev_ind; intros tr1 w H.
  - rewrite app_nil_r in H. exists w. auto.
  - rewrite app_assoc in H. inversion H as [E|tr w0 m ev w' X M S E].
    + destruct (tr1 ++ tr2); discriminate.
    + apply app_inj_tail in E. destruct E as (-> & _). destruct (IH _ _ X) as (w1 & X1 & _). exists w1. split; auto.
      intros E. destruct tr2; discriminate.
Qed.
Lemma texec_last L P may tr m ev w : texec L P may (tr ++ [(m, ev)]) w -> exists w0, texec L P may tr w0 /\ may w0 m /\ tstep L P w0 m = Some (TCont w ev).
Proof.
  intros H. inversion H as [E|tr' w0 m' ev' w' X M S E].
  - destruct tr; discriminate.
  - apply app_inj_tail in E. destruct E as (-> & E). injection E as -> ->. exists w0. auto.
Qed.

(** A packet found stays as it was until its text is written. *)
Definition holding (id a eth : Z) (data : list Z) (n : chars) (w : tworld) : Prop :=
  find (isFd id) (x_pk w) = Some (mkFd id a eth data) /\
  (nameAt w a = Some n \/ (nameAt w a = None /\ 1 <= a <= zlen (x_names w))).
Lemma find_app {A} (f : A -> bool) l1 l2 x : find f l1 = Some x -> find f (l1 ++ l2) = Some x.
Proof. induction l1 as [|y l1 IH]; cbn; [discriminate|]. destruct (f y); auto. Qed.
Lemma find_filter id id' l p : find (isFd id) l = Some p -> id <> id' -> find (isFd id) (filter (fun q => negb (isFd id' q)) l) = Some p.
Proof.
  intros H N. induction l as [|y l IH]; [discriminate|]. cbn [find filter] in *. unfold isFd at 1 in H. unfold isFd at 2.
  destruct (Z.eqb_spec (fd_id y) id) as [E|E].
  - injection H as <-. destruct (Z.eqb_spec (fd_id y) id') as [|_]; [congruence|]. cbn [negb find]. unfold isFd at 1. rewrite E, Z.eqb_refl. reflexivity.
  - destruct (Z.eqb_spec (fd_id y) id') as [_|_]; cbn [negb]; [auto|]. cbn [find]. unfold isFd at 1. destruct (Z.eqb_spec (fd_id y) id); [contradiction|auto].
Qed.
Lemma holding_step L P id a eth data n w m ev w' : holding id a eth data n w -> tstep L P w m = Some (TCont w' ev) -> m <> TWrite id -> holding id a eth data n w'.
Proof.
  intros (H1 & H2) S N. destruct m as [c| |id' eth' data'|id']; cbn [tstep] in S.
  - destruct (x_free w =? 0); [|discriminate]. injection S as S. unfold traceRequest in S.
    destruct (c_action c) as [act|]; [|discriminate].
    assert (NEW : forall k set fr, holding id a eth data n (mkTW (x_names w ++ [Some k]) set fr (x_pk w))).
    { intros k set fr. split; auto. destruct H2 as [H2|(H2 & R)]; [left; apply nameAt_old; auto|right].
      unfold nameAt in *. cbn [x_names]. split; [|rewrite Match_Proofs.zlen_app; cbn; lia].
      destruct (znth_in_range _ (x_names w) (a - 1)) as (o & O); [lia|]. rewrite (znth_app_l _ _ _ _ O). rewrite O in H2. auto. }
    destruct (streq act (str "trace-set")).
    { destruct (c_name c) as [k|]; [|discriminate]. destruct (flowDefine _ _ _) as [[[e|] set]| | |]; try discriminate; injection S as <- <-; apply NEW. }
    destruct (streq act (str "trace-delete")).
    { destruct (c_name c) as [k|]; [|injection S as <- <-; split; auto]. destruct (flowDelete _ _) as [[f|] set]; injection S as <- <-; split; auto. }
    destruct (streq act (str "trace-list")); [destruct (flowSetPrint _ _ _); try discriminate; injection S as <- <-; split; auto|].
    destruct (streq act (str "trace-list-names")); injection S as <- <-; split; auto.
  - destruct (x_free w =? 0); [discriminate|]. destruct (nameAt w (x_free w)) as [k|] eqn:E; [|discriminate]. injection S as <- <-. split; auto.
    destruct (Z.eq_dec (x_free w) a) as [EQ|NE].
    + rewrite EQ in *. right. pose proof (nameAt_range _ _ _ E) as R. unfold nameAt. cbn [x_names]. rewrite zlen_zupd. split; [|lia]. rewrite znth_zupd_eq; [auto|lia].
    + destruct H2 as [H2|(H2 & R)]; [left; apply nameAt_freed; auto|right]. unfold nameAt in *. cbn [x_names]. rewrite zlen_zupd. split; [|lia].
      rewrite znth_zupd_neq; [auto|lia].
  - destruct (existsb _ _); [discriminate|]. injection S as S. unfold traceLookup in S.
    destruct (getHashKey _ _ _ _) as [[[[rc k] fi]|]| | |]; try discriminate; [|injection S as <- _; split; auto].
    destruct (_ =? 2); [injection S as <- _; split; auto|]. destruct (flowLookup _ _ _ _ _ _) as [[r u]| | |]; try discriminate.
    destruct (r =? 0); injection S as <- _; [split; auto|]. split; [|exact H2]. cbn [x_pk]. apply find_app. auto.
  - destruct (find (isFd id') (x_pk w)) as [p|]; [|discriminate]. destruct (nameAt w (fd_ref p)); [|discriminate].
    destruct (printIcmp _ _); try discriminate. injection S as <- _. split; [|exact H2]. cbn [x_pk]. apply find_filter; auto. congruence.
Qed.
Lemma holding_exec L P may id a eth data n tr1 w1 tr2 : forall w2, texec L P may tr1 w1 -> holding id a eth data n w1 ->
  texec L P may (tr1 ++ tr2) w2 -> (forall w, texec L P may tr1 w -> w = w1) -> (forall e, ~ In (TWrite id, e) tr2) -> holding id a eth data n w2.
Proof.
  induction tr2 as [|[m ev] tr2 IH] using rev_ind; intros w2 X H X2 U N.
  - rewrite app_nil_r in X2. rewrite (U _ X2). auto.
  - rewrite app_assoc in X2. apply texec_last in X2. destruct X2 as (w0 & X0 & _ & S). apply (holding_step L P id a eth data n w0 m ev w2); auto.
    + apply (IH w0); auto. intros e IN. apply (N e). apply in_or_app. auto.
    + intros ->. apply (N ev). apply in_or_app. right. left. auto.
Qed.
Lemma texec_fun L P may tr : forall w w', texec L P may tr w -> texec L P may tr w' -> w = w'.
Proof.
  induction tr as [|[m ev] tr IH] using rev_ind; intros w w' A B.
  - inversion A as [E|tr' w0 m' ev' w'' X M S E]; [|apply app_eq_nil in E; destruct E; discriminate].
    inversion B as [E2|tr' w0 m' ev' w'' X M S E2]; [auto|apply app_eq_nil in E2; destruct E2; discriminate].
  - apply texec_last in A, B. destruct A as (a & A1 & _ & A2). destruct B as (b & B1 & _ & B2). rewrite (IH _ _ A1 B1) in A2. congruence.
Qed.
