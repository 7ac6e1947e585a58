(** Executions of lb and flowlb, and the exact decisions (C48). *)
From Coq Require Import String.
From Verif Require Import Base Lists Cstr_Model IpKey_Model IpKey_Spec IpKey_Proofs Maglev_Model Flow_Model Flow_Spec Flow_Proofs Flow2_Proofs Flow3_Proofs
  Remote_Model FlowLb_Model FlowLb_Spec FlowLb4_Proofs Lb_Model Lb_Spec FragVals_Proofs Lb_Proofs.
From Verif Require Frag_Model FlowLb_Proofs FlowLb5_Proofs.

(** ** Worlds on the way *)
Lemma passed_last h w0 tr w : exec h anything w0 tr w -> passed h w0 tr w w.
Proof. intros H. exists tr, []. split; [rewrite app_nil_r; auto|]. split; auto. constructor. Qed.
Lemma passed_more h w0 tr w m ev w2 w' : passed h w0 tr w w' -> step h w m = Some (Cont w2 ev) -> passed h w0 (tr ++ [(m, ev)]) w2 w'.
Proof.
  intros (t1 & t2 & -> & H1 & H2) E. exists t1, (t2 ++ [(m, ev)]). split; [rewrite app_assoc; auto|]. split; auto.
  eapply ex_step; eauto. exact I.
Qed.
Lemma lpassed_last g w0 tr w : lexec g w0 tr w -> lpassed g w0 tr w w.
Proof. intros H. exists tr, []. split; [rewrite app_nil_r; auto|]. split; auto. constructor. Qed.
Lemma lpassed_more g w0 tr w m w2 w' : lpassed g w0 tr w w' -> lstep g w m = Some (LCont w2) -> lpassed g w0 (tr ++ [m]) w2 w'.
Proof.
  intros (t1 & t2 & -> & H1 & H2) E. exists t1, (t2 ++ [m]). split; [rewrite app_assoc; auto|]. split; auto.
  eapply lx_step; eauto.
Qed.
Lemma znth_app_l {A} (l r : list A) i x : znth l i = Some x -> znth (l ++ r) i = Some x.
Proof. unfold znth. destruct (i <? 0); [discriminate|]. intros E. rewrite nth_error_app1; auto. apply nth_error_Some. congruence. Qed.
Lemma znth_app1 {A} (l : list A) y i x : znth (l ++ [y]) i = Some x -> znth l i = Some x \/ x = y.
Proof.
  unfold znth. destruct (i <? 0); [discriminate|]. intros E. destruct (Nat.lt_ge_cases (Z.to_nat i) (length l)) as [L|L].
  - rewrite nth_error_app1 in E; auto.
  - rewrite nth_error_app2 in E by lia. right. destruct (Z.to_nat i - length l)%nat as [|n]; cbn in E; [congruence|destruct n; discriminate].
Qed.

(** ** One packet *)
Lemma track h P i w0 tr w : exec h anything w0 tr w -> (forall s, p_frag P s) ->
  (forall w', passed h w0 tr w w' -> p_state P (w_st w')) ->
  (exists p, znth (w_pk w0) i = Some p /\ vok P p) -> exists p, znth (w_pk w) i = Some p /\ vok P p.
Proof.
  intros H F. induction H as [w|w0 tr w1 m ev w2 H IH M E]; intros W K; auto.
  destruct IH as (p & Z & V); auto. { intros w' X. apply W. eapply passed_more; eauto. }
  assert (W1 : p_state P (w_st w1)) by (apply W; eapply passed_more; [apply passed_last; auto|eauto]).
  destruct m as [now done eth data|c| |j|shm mem]; cbn [step] in E.
  - injection E as <- <-. cbn [w_pk]. exists p. split; auto. apply znth_app_l. auto.
  - destruct (idle (w_flow w1)); [|discriminate]. injection E as <- <-. eauto.
  - destruct (w_flow w1) as [r|l f]; [discriminate|]. destruct (f (w_st w1)); try discriminate. injection E as <- <-. eauto.
  - destruct (znth (w_pk w1) j) as [[r|l f]|] eqn:EJ; try discriminate. destruct (f (w_st w1)) as [ev' s' p'| |] eqn:EF; try discriminate.
    injection E as <- <-. cbn [w_pk]. destruct (Z.eq_dec j i) as [->|N].
    + exists p'. split; [apply znth_zupd_eq; eapply znth_some_range; eauto|]. assert (p = Act l f) as -> by congruence.
      specialize (V (w_st w1) W1 (F _)). rewrite EF in V. apply V.
    + exists p. split; auto. rewrite znth_zupd_neq by auto. auto.
  - injection E as <- <-. eauto.
Qed.
Lemma ltrack g P i w0 tr w : lexec g w0 tr w -> (forall s, p_frag P s) ->
  (forall w', lpassed g w0 tr w w' -> p_state P (lw_st w')) ->
  (exists p, znth (lw_pk w0) i = Some p /\ vok P p) -> exists p, znth (lw_pk w) i = Some p /\ vok P p.
Proof.
  intros H F. induction H as [w|w0 tr w1 m w2 H IH E]; intros W K; auto.
  destruct IH as (p & Z & V); auto. { intros w' X. apply W. eapply lpassed_more; eauto. }
  assert (W1 : p_state P (lw_st w1)) by (apply W; eapply lpassed_more; [apply lpassed_last; auto|eauto]).
  destruct m as [now done eth data|j|mem]; cbn [lstep] in E.
  - injection E as <-. cbn [lw_pk]. exists p. split; auto. apply znth_app_l. auto.
  - destruct (znth (lw_pk w1) j) as [[r|l f]|] eqn:EJ; try discriminate. destruct (f (lw_st w1)) as [ev' s' p'| |] eqn:EF; try discriminate.
    injection E as <-. cbn [lw_pk]. destruct (Z.eq_dec j i) as [->|N].
    + exists p'. split; [apply znth_zupd_eq; eapply znth_some_range; eauto|]. assert (p = Act l f) as -> by congruence.
      specialize (V (lw_st w1) W1 (F _)). rewrite EF in V. apply V.
    + exists p. split; auto. rewrite znth_zupd_neq by auto. auto.
  - injection E as <-. eauto.
Qed.

(** ** All packets *)
Lemma track_all h P w0 tr w : exec h anything w0 tr w ->
  (forall now done eth data, vok P (packet h now done eth data)) ->
  (forall w', passed h w0 tr w w' -> p_state P (w_st w')) ->
  p_frag P (t_ft (w_st w0)) -> vok P (w_flow w0) -> (forall i p, znth (w_pk w0) i = Some p -> vok P p) ->
  p_frag P (t_ft (w_st w)) /\ vok P (w_flow w) /\ forall i p, znth (w_pk w) i = Some p -> vok P p.
Proof.
  intros H HP. induction H as [w|w0 tr w1 m ev w2 H IH M E]; intros W F0 K0 P0; auto.
  destruct IH as (F & K & PK); auto. { intros w' X. apply W. eapply passed_more; eauto. }
  assert (W1 : p_state P (w_st w1)) by (apply W; eapply passed_more; [apply passed_last; auto|eauto]).
  destruct m as [now done eth data|c| |j|shm mem]; cbn [step] in E.
  - injection E as <- <-. cbn [w_pk w_st w_flow]. split; auto. split; auto. intros i p Z. destruct (znth_app1 _ _ _ _ Z) as [X| ->]; eauto.
  - destruct (idle (w_flow w1)); [|discriminate]. injection E as <- <-. cbn [w_pk w_st w_flow]. split; auto. split; [apply vok_command|eauto].
  - destruct (w_flow w1) as [r|l f]; [discriminate|]. specialize (K _ W1 F). destruct (f (w_st w1)); try discriminate. injection E as <- <-.
    destruct K as (K1 & K2). cbn [w_pk w_st w_flow]. auto.
  - destruct (znth (w_pk w1) j) as [[r|l f]|] eqn:EJ; try discriminate. pose proof (PK _ _ EJ _ W1 F) as KJ.
    destruct (f (w_st w1)) as [ev' s' p'| |] eqn:EF; try discriminate. injection E as <- <-. destruct KJ as (K1 & K2). cbn [w_pk w_st w_flow].
    split; auto. split; auto. intros i p Z. destruct (Z.eq_dec j i) as [->|N].
    + rewrite znth_zupd_eq in Z by (eapply znth_some_range; eauto). assert (p = p') as -> by congruence. auto.
    + rewrite znth_zupd_neq in Z by auto. eauto.
  - injection E as <- <-. auto.
Qed.
Lemma ltrack_all g P w0 tr w : lexec g w0 tr w ->
  (forall now done eth data, vok P (lbPacket g now done eth data)) ->
  (forall w', lpassed g w0 tr w w' -> p_state P (lw_st w')) ->
  p_frag P (t_ft (lw_st w0)) -> (forall i p, znth (lw_pk w0) i = Some p -> vok P p) ->
  p_frag P (t_ft (lw_st w)) /\ forall i p, znth (lw_pk w) i = Some p -> vok P p.
Proof.
  intros H HP. induction H as [w|w0 tr w1 m w2 H IH E]; intros W F0 P0; auto.
  destruct IH as (F & PK); auto. { intros w' X. apply W. eapply lpassed_more; eauto. }
  assert (W1 : p_state P (lw_st w1)) by (apply W; eapply lpassed_more; [apply lpassed_last; auto|eauto]).
  destruct m as [now done eth data|j|mem]; cbn [lstep] in E.
  - injection E as <-. cbn [lw_pk lw_st]. split; auto. intros i p Z. destruct (znth_app1 _ _ _ _ Z) as [X| ->]; eauto.
  - destruct (znth (lw_pk w1) j) as [[r|l f]|] eqn:EJ; try discriminate. pose proof (PK _ _ EJ _ W1 F) as KJ.
    destruct (f (lw_st w1)) as [ev' s' p'| |] eqn:EF; try discriminate. injection E as <-. destruct KJ as (K1 & K2). cbn [lw_pk lw_st].
    split; auto. intros i p Z. destruct (Z.eq_dec j i) as [->|N].
    + rewrite znth_zupd_eq in Z by (eapply znth_some_range; eauto). assert (p = p') as -> by congruence. auto.
    + rewrite znth_zupd_neq in Z by auto. eauto.
  - injection E as <-. auto.
Qed.
Lemma fvals_create A c : fvals A (Frag_Model.fragTableCreate c).
Proof. intros o b []. Qed.

(** ** The decisions *)
Lemma lb_decisions g mem tr w i v : lexec g (lstart g mem) tr w -> znth (lw_pk w) i = Some (Ret (Verdict v)) ->
  v = -1 \/ v = h_notargets (l_h g) \/ exists w', lpassed g (lstart g mem) tr w w' /\
    (active (lw_st w') (l_target g) v \/ exists r own, h_tier (l_h g) = Some (r, own) /\ active (lw_st w') r v /\ v <> own).
Proof.
  intros H Z.
  set (P := mkP (fun v => exists w', lpassed g (lstart g mem) tr w w' /\ active (lw_st w') (l_target g) v)
     (fun v => v = -1 \/ v = h_notargets (l_h g) \/ exists w', lpassed g (lstart g mem) tr w w' /\
        (active (lw_st w') (l_target g) v \/ exists r own, h_tier (l_h g) = Some (r, own) /\ active (lw_st w') r v /\ v <> own))
     (fun s => exists w', lpassed g (lstart g mem) tr w w' /\ lw_st w' = s)
     (fvals (fun v => exists w', lpassed g (lstart g mem) tr w w' /\ active (lw_st w') (l_target g) v))).
  destruct (ltrack_all g P _ tr w H) as (_ & K).
  - intros now done eth data. apply vok_lb; [constructor|]; cbn [P p_mark p_verdict p_state p_frag]; auto.
    + intros v' (w' & X & Y). right. right. eauto.
    + intros s r own v' _ (w' & X & <-) T AC N. right. right. exists w'. split; auto. right. eauto.
    + intros s c d s' ob E F C. exact (proj1 (call_vals _ _ _ _ _ _ _ E F C)).
    + intros s t k dt d s' ob _ E F. exact (proj2 (call_vals _ _ _ _ _ _ _ E F I)).
    + intros s v' (w' & X & <-) AC. eauto.
  - intros w' X. exists w'. auto.
  - apply fvals_create.
  - intros j p E. unfold znth in E. cbn [lstart lw_pk] in E. destruct (j <? 0); [discriminate|]. destruct (Z.to_nat j); discriminate.
  - exact (K _ _ Z).
Qed.
Lemma flowlb_decisions h shm mem tr w i v : exec h anything (start h shm mem) tr w -> znth (w_pk w) i = Some (Ret (Verdict v)) ->
  v = -1 \/ v = h_notargets h \/ v = h_nolb h \/ exists w' r, passed h (start h shm mem) tr w w' /\ active (w_st w') r v /\
    (target_table (w_st w') r \/ exists own, h_tier h = Some (r, own) /\ v <> own).
Proof.
  intros H Z.
  set (A := fun v => exists w' r, passed h (start h shm mem) tr w w' /\ active (w_st w') r v /\ target_table (w_st w') r).
  set (P := mkP A (fun v => v = -1 \/ v = h_notargets h \/ v = h_nolb h \/ exists w' r, passed h (start h shm mem) tr w w' /\ active (w_st w') r v /\
        (target_table (w_st w') r \/ exists own, h_tier h = Some (r, own) /\ v <> own))
     (fun s => exists w', passed h (start h shm mem) tr w w' /\ w_st w' = s) (fvals A)).
  destruct (track_all h P _ tr w H) as (_ & _ & K).
  - intros now done eth data. apply vok_packet; [constructor| |]; cbn [P p_mark p_verdict p_state p_frag]; auto.
    + intros v' (w' & r & X & Y & T). right. right. right. exists w', r. auto.
    + intros s r own v' _ (w' & X & <-) T AC N. right. right. right. exists w', r. split; auto. split; auto. right. eauto.
    + intros s c d s' ob E F C. exact (proj1 (call_vals _ _ _ _ _ _ _ E F C)).
    + intros s t k dt d s' ob _ E F. exact (proj2 (call_vals _ _ _ _ _ _ _ E F I)).
    + intros s s' a r v' _ _ (w' & X & <-) R AC. exists w', r. split; auto. split; auto. unfold lbRegion, deref in R.
      destruct (znth (t_objs (w_st w')) (a - 1)) as [o|] eqn:EZ; [|discriminate]. destruct (lb_freed o); [discriminate|].
      exists o. split; [eapply znth_In; eauto|congruence].
  - intros w' X. exists w'. auto.
  - apply fvals_create.
  - exact I.
  - intros j p E. unfold znth in E. cbn [start w_pk] in E. destruct (j <? 0); [discriminate|]. destruct (Z.to_nat j); discriminate.
  - exact (K _ _ Z).
Qed.

(** The table is read while the packet is handled. *)
Lemma lb_during g w0 now done eth data w1 tr w v : ~ other_fragment (l_encap g) eth data ->
  lstep g w0 (LArrive now done eth data) = Some (LCont w1) -> lexec g w1 tr w ->
  znth (lw_pk w) (zlen (lw_pk w0)) = Some (Ret (Verdict v)) ->
  v = -1 \/ v = h_notargets (l_h g) \/ exists w', lpassed g w1 tr w w' /\
    (active (lw_st w') (l_target g) v \/
     fragment (l_encap g) eth data /\ exists r own, h_tier (l_h g) = Some (r, own) /\ active (lw_st w') r v /\ v <> own).
Proof.
  intros NO E H Z.
  set (P := mkP (fun v => exists w', lpassed g w1 tr w w' /\ active (lw_st w') (l_target g) v)
     (fun v => v = -1 \/ v = h_notargets (l_h g) \/ exists w', lpassed g w1 tr w w' /\
        (active (lw_st w') (l_target g) v \/ fragment (l_encap g) eth data /\ exists r own, h_tier (l_h g) = Some (r, own) /\ active (lw_st w') r v /\ v <> own))
     (fun s => exists w', lpassed g w1 tr w w' /\ lw_st w' = s) (fun _ => True)).
  destruct (ltrack g P (zlen (lw_pk w0)) w1 tr w H) as (p & Z' & V).
  - intros s. exact I.
  - intros w' X. exists w'. auto.
  - cbn [lstep] in E. injection E as <-. cbn [lw_pk]. exists (lbPacket g now done eth data). split; [apply znth_mid|].
    apply vok_lb; [constructor|]; cbn [P p_mark p_verdict p_state p_frag]; auto.
    + intros v' (w' & X & Y). right. right. eauto.
    + intros s r own v' FR (w' & X & <-) T AC N. right. right. exists w'. split; auto. right. split; auto. eauto.
    + intros s t k dt d s' ob O. contradiction.
    + intros s v' (w' & X & <-) AC. eauto.
  - assert (p = Ret (Verdict v)) as -> by congruence. exact V.
Qed.
Lemma flowlb_during h w0 now done eth data w1 ev tr w v : ~ other_fragment 0 eth data ->
  step h w0 (Arrive now done eth data) = Some (Cont w1 ev) -> exec h anything w1 tr w ->
  znth (w_pk w) (zlen (w_pk w0)) = Some (Ret (Verdict v)) ->
  v = -1 \/ v = h_notargets h \/ v = h_nolb h \/ exists w' r, passed h w1 tr w w' /\ active (w_st w') r v /\
    ((exists a w2, passed h w1 tr w w2 /\ selects h (w_st w2) eth data a /\ lbRegion a (w_st w') = Some r) \/
     fragment 0 eth data /\ exists own, h_tier h = Some (r, own) /\ v <> own).
Proof.
  intros NO E H Z.
  set (A := fun v => exists w' r, passed h w1 tr w w' /\ active (w_st w') r v /\
    exists a w2, passed h w1 tr w w2 /\ selects h (w_st w2) eth data a /\ lbRegion a (w_st w') = Some r).
  set (P := mkP A
     (fun v => v = -1 \/ v = h_notargets h \/ v = h_nolb h \/ exists w' r, passed h w1 tr w w' /\ active (w_st w') r v /\
    ((exists a w2, passed h w1 tr w w2 /\ selects h (w_st w2) eth data a /\ lbRegion a (w_st w') = Some r) \/
     fragment 0 eth data /\ exists own, h_tier h = Some (r, own) /\ v <> own))
     (fun s => exists w', passed h w1 tr w w' /\ w_st w' = s) (fun _ => True)).
  destruct (track h P (zlen (w_pk w0)) w1 tr w H) as (p & Z' & V).
  - intros s. exact I.
  - intros w' X. exists w'. auto.
  - cbn [step] in E. injection E as <- <-. cbn [w_pk]. exists (packet h now done eth data). split; [apply znth_mid|].
    apply vok_packet; [constructor| |]; cbn [P p_mark p_verdict p_state p_frag]; auto.
    + intros v' (w' & r & X & Y & T). right. right. right. exists w', r. auto.
    + intros s r own v' FR (w' & X & <-) T AC N. right. right. right. exists w', r. split; auto. split; auto. right. split; auto. eauto.
    + intros s t k dt d s' ob O. contradiction.
    + intros s s' a r v' (w2 & X2 & <-) SL (w' & X & <-) R AC. exists w', r. split; auto. split; auto. exists a, w2. auto.
  - assert (p = Ret (Verdict v)) as -> by congruence. exact V.
Qed.
