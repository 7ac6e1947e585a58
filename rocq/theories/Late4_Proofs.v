(** As long as the entry is in the table the second read gets it (C92): executions. *)
From Coq Require Import Permutation.
From Verif Require Import Base Lists IpKey_Model Conntrack_Model Conntrack_Spec Conntrack_Proofs Conntrack2_Proofs Frag_Model Frag_Spec Frag_Proofs Frag2_Proofs Frag3_Proofs FragEnd_Proofs Late_Model Late_Spec Late_Proofs Late3_Proofs.

Definition tabstep (n n' : Z) (t t' : ct) (ins : list Z) : Prop :=
  winv t' /\ (exists fr, Permutation (stored_data t ++ ins) (stored_data t' ++ fr)) /\
  (exists al fb, Permutation (stored_buckets t ++ al) (stored_buckets t' ++ fb) /\ (al = [] \/ al = [n] /\ n < n')) /\
  (forall i x d, at_ t' i x d -> d <> 0 -> at_ t i x d \/ In d ins).
Lemma tab_refl n n' t : winv t -> tabstep n n' t t [].
Proof. intros W. split; [exact W|]. split; [exists []; reflexivity|]. split; [exists [], []; auto|auto]. Qed.
Lemma tab_cstep n n' t o t' v ev : winv t -> cstep t o = Ok (t', v, ev) -> (forall now, o <> OStats now) -> (allocated ev = [] \/ allocated ev = [n] /\ n < n') -> tabstep n n' t t' (ins1 o v).
Proof.
  intros W H NS A. destruct (step_conserves _ _ _ _ _ W H) as (W' & P1 & P2). split; [exact W'|]. split; [eexists; exact P1|]. split; [exists (allocated ev), (freed_buckets ev); auto|].
  intros i x d. eapply cstep_at; eauto.
Qed.

Definition fresh_of (p : pc) : list Z := match p with PIns _ o | PLost _ o | PFull _ o => [o] | _ => [] end.
Definition same_tab (s s' : sys) : Prop := s_ct s' = s_ct s /\ s_next s' = s_next s.
Lemma unlock_same s o s' ob : fragDataUnlock s o = Ok (s', ob) -> same_tab s s'.
Proof. unfold fragDataUnlock. destruct (oget (s_objs s) o) as [b|]; [|discriminate]. destruct (_ =? 0); intros H; injection H as <- <-; split; reflexivity. Qed.
Lemma lock_same s o s' : fragDataLock s o = Ok s' -> same_tab s s'.
Proof. unfold fragDataLock. destruct (oget (s_objs s) o) as [b|]; [|discriminate]. intros H; injection H as <-; split; reflexivity. Qed.
Lemma callbacks_same : forall ev s s' ob, callbacks s ev = Ok (s', ob) -> same_tab s s'.
Proof.
  induction ev as [|e ev IH]; intros s s' ob H; cbn [callbacks] in H; [injection H as <- <-; split; reflexivity|].
  match type of H with obind ?x _ = _ => destruct x as [[s1 ob1]| | |] eqn:E1 end; cbn [obind] in H; try discriminate.
  destruct (callbacks s1 ev) as [[s2 ob2]| | |] eqn:E2; cbn [obind] in H; try discriminate. injection H as <- <-. apply IH in E2. destruct E2 as [A B].
  assert (C : same_tab s s1) by (destruct e as [d|m|[m|]]; [eapply unlock_same; eauto| | |]; injection E1 as <- <-; split; reflexivity). destruct C as [C D]. split; congruence.
Qed.
Lemma table_op_tab s o s' v ob : table_op s o = Ok (s', v, ob) -> exists ev, cstep (s_ct s) o = Ok (s_ct s', v, ev) /\ s_next s' = s_next s.
Proof.
  unfold table_op. destruct (cstep (s_ct s) o) as [[[t v1] ev]| | |] eqn:E; cbn [obind]; try discriminate. destruct (callbacks (set_ct s t) ev) as [[s1 ob1]| | |] eqn:E2; cbn [obind]; try discriminate.
  intros H. injection H as <- <- <-. apply callbacks_same in E2. destruct E2 as [A B]. exists ev. cbn [set_ct s_ct s_next] in A, B. rewrite A. auto.
Qed.
Lemma lookup_op_tab s now k s' v ob : lookup_op s now k = Ok (s', v, ob) -> exists ev, ctLookup (s_ct s) now k = Ok (s_ct s', v, ev) /\ s_next s' = s_next s.
Proof.
  unfold lookup_op. destruct (table_op s (OLookup now k)) as [[[s1 o] ob1]| | |] eqn:E; cbn [obind]; try discriminate. apply table_op_tab in E. destruct E as (ev & E & N). cbn [cstep] in E.
  destruct (Z.eqb_spec o 0) as [->|].
  - intros H. injection H as <- <- <-. exists ev. auto.
  - destruct (fragDataLock s1 o) as [s2| | |] eqn:E2; cbn [obind]; try discriminate. intros H. injection H as <- <- <-. apply lock_same in E2. destruct E2 as [A B]. exists ev. rewrite A, B. auto.
Qed.

Definition moves (n n' : Z) (f f' ins : list Z) : Prop := exists new rest, Permutation (f ++ new) (ins ++ f' ++ rest) /\ (new = [] \/ new = [n] /\ n < n').
Lemma moves_same n n' f : moves n n' f f [].
Proof. exists [], []. auto. Qed.
Lemma moves_drop n n' f : moves n n' f [] [].
Proof. exists [], f. rewrite app_nil_r. auto. Qed.
Lemma lookup_tab n n' t now k t' v ev : winv t -> ctLookup t now k = Ok (t', v, ev) -> tabstep n n' t t' [].
Proof. intros W H. eapply (tab_cstep n n' t (OLookup now k)); [exact W|exact H|discriminate|left; eapply lookup_alloc; eauto]. Qed.
Lemma remove_alloc t now k t' v ev : winv t -> cstep t (ORemove now k) = Ok (t', v, ev) -> allocated ev = [].
Proof.
  intros W H. cbn [cstep] in H. unfold ctRemove in H. destruct (slot (t_buckets t) k) as [i| | |]; try discriminate. cbn [obind] in H.
  destruct (aget (t_buckets t) i) as [b| | |] eqn:Eb; try discriminate. apply aget_ok in Eb. cbn [obind] in H. destruct (lookupBucket b now) as [[b1 ev1] n] eqn:HL.
  destruct (lookupBucket_spec _ _ _ _ _ HL (W _ _ Eb)) as [L1 [L2 [L3 [L4 [L5 [L6 L7]]]]]].
  destruct (key_eqb k (c_key (b_main b1))) eqn:Ek.
  - cbn [obind] in H. injection H as <- <- <-. rewrite allocated_app, L7. destruct (_ =? 0); reflexivity.
  - apply key_eqb_false in Ek. destruct (remove_chain (b_chain b1) k) as [l' ev'] eqn:Er. cbn [obind] in H. injection H as <- <- <-.
    destruct (remove_other_spec b1 k l' ev' L1 ltac:(congruence) Er) as [_ [_ [_ [_ P3]]]]. rewrite allocated_app, L7, P3. reflexivity.
Qed.
Definition stepped (s s' : sys) (p p' : pc) : Prop := exists ins, tabstep (s_next s) (s_next s') (s_ct s) (s_ct s') ins /\ s_next s <= s_next s' /\ moves (s_next s) (s_next s') (fresh_of p) (fresh_of p') ins /\ incl ins (fresh_of p).
Lemma stepped_same s s' p p' : winv (s_ct s) -> same_tab s s' -> fresh_of p' = fresh_of p \/ fresh_of p' = [] -> stepped s s' p p'.
Proof.
  intros W [A B] F. exists []. rewrite A, B. split; [apply tab_refl; exact W|]. split; [lia|]. split; [|intros z []]. destruct F as [-> | ->]; [apply moves_same|apply moves_drop].
Qed.
Lemma tstep_tab g s p a s' p' ob : winv (s_ct s) -> tstep g s p a = Ok (s', p', ob) -> stepped s s' p p'.
Proof.
  intros W H. destruct p; cbn [tstep] in H.
  all: try (match type of H with obind (lookup_op ?s ?n ?k) _ = _ => destruct (lookup_op s n k) as [[[s1 o1] ob1]| | |] eqn:E; cbn [obind] in H; try discriminate; apply lookup_op_tab in E; destruct E as (ev & E & N) end;
    assert (Q : s' = s1 /\ fresh_of p' = []) by (destruct (o1 =? 0); [|injection H as <- <- _; auto]; try destruct (a_call a); injection H as <- <- _; auto); destruct Q as [-> Q];
    exists []; rewrite Q, N; split; [eapply lookup_tab; eauto|split; [lia|split; [apply moves_drop|intros z []]]]; fail).
  all: try (match type of H with obind (fragDataUnlock ?s ?o) _ = _ => destruct (fragDataUnlock s o) as [[s1 ob1]| | |] eqn:E; cbn [obind] in H; try discriminate; apply unlock_same in E end;
    injection H as <- <- _; apply stepped_same; auto; fail).
  - (* PAlloc *) destruct (_ <=? 0); injection H as <- <- _; [apply stepped_same; auto; split; reflexivity|].
    exists []. cbn [s_ct s_next add_fd set_next set_objs fresh_of]. split; [apply tab_refl; exact W|]. split; [lia|]. split; [|intros z []]. exists [s_next s], []. split; [reflexivity|right; split; [auto|lia]].
  - (* PIns *) unfold insert_op in H. destruct (ctInsertWithTTL _ _ _ _ _ (Some _)) as [[[t0 v0] ev0]| | |]; cbn [obind] in H; try discriminate.
    match type of H with obind (table_op ?s ?n) _ = _ => destruct (table_op s n) as [[[s1 rc] ob1]| | |] eqn:E end; cbn [obind] in H; try discriminate. injection H as <- <- _.
    apply table_op_tab in E. destruct E as (ev & E & N). cbn [s_ct set_next s_next] in E, N. pose proof E as E0. cbn [cstep] in E0. destruct (allocated_insert _ _ _ _ _ _ _ _ _ E0 W) as [A _].
    exists (ins1 (OInsert (c_now c) (c_k c) (g_ttl g) o (if negb (a_starved a) && (0 <? s_bkfree s + zlen (freed_buckets ev0)) then Some (s_next s) else None)) rc).
    split; [eapply tab_cstep; [exact W|exact E|discriminate|]|].
    { destruct A as [A|(m & A1 & A2)]; [auto|]. right. destruct (_ && _); [|discriminate]. injection A1 as <-. split; [exact A2|lia]. }
    split; [lia|]. unfold ins1. cbn [inserted fresh_of]. destruct (Z.eqb_spec rc 0) as [->|]; cbn [fresh_of].
    + split; [|intros z I; exact I]. exists [], []. auto.
    + split; [|intros z []]. destruct (_ =? 1); apply moves_same.
  - (* PInc *) destruct (fragDataLock s o) as [s1| | |] eqn:E; cbn [obind] in H; try discriminate. injection H as <- <- _. apply stepped_same; auto. eapply lock_same; eauto.
  - (* PBody *) destruct (oget (s_objs s) o) as [b|]; [|discriminate]. destruct c as [now k v want|now k|now k data].
    + destruct (o_state b); injection H as <- <- _; apply stepped_same; auto; split; reflexivity.
    + destruct (o_state b); injection H as <- <- _; apply stepped_same; auto; split; reflexivity.
    + assert (Y : (s' = s /\ p' = PCheck (CStore now k data) o) \/ exists s1 v ob1, table_op s (ORemove now k) = Ok (s1, v, ob1) /\ s' = inc_reas s1 /\ p' = PCheck (CStore now k data) o).
      { destruct (o_state b), (a_done a); try (injection H as <- <- _; left; auto; fail). right. destruct (table_op s (ORemove now k)) as [[[s1 v] ob1]| | |]; cbn [obind] in H; try discriminate. injection H as <- <- _. exists s1, v, ob1. auto. }
      destruct Y as [[-> ->]|(s1 & v & ob1 & E & -> & ->)]; [apply stepped_same; auto; split; reflexivity|]. apply table_op_tab in E. destruct E as (ev & E & N).
      exists []. cbn [inc_reas s_ct s_next]. rewrite N. split; [|split; [lia|split; [apply moves_drop|intros z []]]].
      eapply (tab_cstep _ _ _ (ORemove now k)); [exact W|exact E|discriminate|left; eapply remove_alloc; eauto].
  - (* PGive *) destruct c as [now k v [|]|now k|now k data]; injection H as <- <- _; apply stepped_same; auto; split; reflexivity.
  - (* PCheck *) destruct (oget (s_objs s) o) as [b|]; [|discriminate]. destruct (o_state b), c as [now k v w|now k|now k data]; try (destruct (g_mtu g <? zlen data)); injection H as <- <- _; apply stepped_same; auto; split; reflexivity.
  - (* PVal *) destruct (oget (s_objs s) o) as [b|]; [|discriminate]. destruct (o_val b); [|discriminate]. injection H as <- <- _; apply stepped_same; auto; split; reflexivity.
  - (* PItem *) destruct c; try discriminate. destruct (_ <=? 0); injection H as <- <- _; [apply stepped_same; auto; split; reflexivity|].
    exists []. cbn [s_ct s_next add_fr set_next fresh_of]. split; [apply tab_refl; exact W|]. split; [lia|]. split; [apply moves_same|intros z []].
  - (* PPoison *) destruct (oget (s_objs s) o) as [b|]; [|discriminate]. injection H as <- <- _; apply stepped_same; auto; split; reflexivity.
  - (* PDrop *) injection H as <- <- _; apply stepped_same; auto; split; reflexivity.
  - (* PPut *) destruct (oget (s_objs s) o) as [b|]; [|discriminate]. destruct (o_state b), (o_val b); try discriminate; injection H as <- <- _; apply stepped_same; auto; split; reflexivity.
  - (* PBack *) injection H as <- <- _; apply stepped_same; auto; split; reflexivity.
Qed.

(** ** Executions *)
Record K (s : sys) (ps : list pc) : Prop := {
  k_wf : winv (s_ct s);
  k_data : NoDup (stored_data (s_ct s) ++ flat_map fresh_of ps);
  k_less : forall d, In d (stored_data (s_ct s) ++ flat_map fresh_of ps) -> d < s_next s;
  k_mem : NoDup (stored_buckets (s_ct s));
  k_mless : forall m, In m (stored_buckets (s_ct s)) -> m < s_next s }.
Lemma tab_K s s' ps ps' ins new rest : K s ps -> tabstep (s_next s) (s_next s') (s_ct s) (s_ct s') ins -> s_next s <= s_next s' ->
  Permutation (flat_map fresh_of ps ++ new) (ins ++ flat_map fresh_of ps' ++ rest) -> (new = [] \/ new = [s_next s] /\ s_next s < s_next s') -> K s' ps'.
Proof.
  intros [W D L M ML] (W' & (fr & P) & (al & fb & PB & A) & _) N F NW.
  assert (P2 : Permutation ((stored_data (s_ct s) ++ flat_map fresh_of ps) ++ new) ((stored_data (s_ct s') ++ flat_map fresh_of ps') ++ fr ++ rest)).
  { rewrite <- app_assoc, F, app_assoc, P. rewrite <- !app_assoc. apply Permutation_app_head. rewrite !app_assoc. apply Permutation_app_tail. apply Permutation_app_comm. }
  assert (D2 : NoDup ((stored_data (s_ct s) ++ flat_map fresh_of ps) ++ new)).
  { destruct NW as [->|[-> _]]; [rewrite app_nil_r; exact D|]. eapply Permutation_NoDup; [apply Permutation_cons_append|]. constructor; [|exact D]. intros I. apply L in I. lia. }
  assert (M2 : NoDup (stored_buckets (s_ct s) ++ al)).
  { destruct A as [->|[-> _]]; [rewrite app_nil_r; exact M|]. eapply Permutation_NoDup; [apply Permutation_cons_append|]. constructor; [|exact M]. intros I. apply ML in I. lia. }
  split; [exact W'|eapply NoDup_left; eapply Permutation_NoDup; [exact P2|exact D2]| |eapply NoDup_left; eapply Permutation_NoDup; [exact PB|exact M2]|].
  - intros d I. assert (I2 : In d ((stored_data (s_ct s) ++ flat_map fresh_of ps) ++ new)) by (eapply Permutation_in; [symmetry; exact P2|apply in_or_app; left; exact I]).
    apply in_app_or in I2. destruct I2 as [I2|I2]; [apply L in I2; lia|]. destruct NW as [->|[-> NW]]; [destruct I2|]. destruct I2 as [<-|[]]. exact NW.
  - intros d I. assert (I2 : In d (stored_buckets (s_ct s) ++ al)) by (eapply Permutation_in; [symmetry; exact PB|apply in_or_app; left; exact I]).
    apply in_app_or in I2. destruct I2 as [I2|I2]; [apply ML in I2; lia|]. destruct A as [->|[-> NW']]; [destruct I2|]. destruct I2 as [<-|[]]. exact NW'.
Qed.
Lemma thread_K s s' ps i p p' : K s ps -> znth ps i = Some p -> stepped s s' p p' -> K s' (zupd ps i p').
Proof.
  intros H Z (ins & T & N & (new & rest & F & NW) & _). eapply tab_K; [exact H|exact T|exact N| |exact NW].
  pose proof (flat_upd _ _ fresh_of ps i p p' new (ins ++ rest) Z) as Q. rewrite Q.
  - rewrite (Permutation_app_comm ins rest), app_assoc. rewrite (Permutation_app_comm _ ins). reflexivity.
  - rewrite F. rewrite !app_assoc. apply Permutation_app_tail. apply Permutation_app_comm.
Qed.
Lemma gc_tab s i now s' ob : winv (s_ct s) -> gc_bucket s i now = Ok (s', ob) -> tabstep (s_next s) (s_next s') (s_ct s) (s_ct s') [] /\ s_next s' = s_next s.
Proof.
  intros W H. unfold gc_bucket in H. destruct (aget (t_buckets (s_ct s)) i) as [b| | |] eqn:Eb; cbn [obind] in H; try discriminate. apply aget_ok in Eb.
  destruct (bucketGC b now) as [[[b' ev] n] a] eqn:E. apply callbacks_same in H. destruct H as [A B]. cbn [set_ct s_ct s_next] in A, B. split; [|exact B]. rewrite A.
  destruct (gc_one _ _ _ _ _ _ _ _ W Eb E) as (W' & P1 & P2 & Ha & _). split; [exact W'|]. split; [exists (freed_data ev); rewrite app_nil_r; exact P1|].
  split; [exists [], (freed_buckets ev); rewrite app_nil_r; auto|]. intros j x d H1 H2. refine (upd_at (s_ct s) i b b' _ (fun d => In d []) Eb _ j x d H1 H2). intros y z N Bz. left. eapply bucketGC_sub; eauto.
Qed.
Lemma exec_K g n tr w : exec g (start g n) tr w -> K (w_sys w) (w_pcs w).
Proof.
  intros X. remember (start g n) as w0. induction X as [w|w tr w1 l ob w2 X IH ST].
  - subst w. unfold start. cbn [w_sys w_pcs fragTableCreate s_ct]. destruct (create_empty (g_hsize g)) as [E1 E2].
    assert (F : flat_map fresh_of (repeat Idle n) = []) by (clear; induction n; cbn; auto).
    split; cbn [fragTableCreate s_ct s_next]; rewrite ?E1, ?E2, ?F; [apply create_winv|constructor|intros d []|constructor|intros d []].
  - specialize (IH Heqw0). destruct l as [i a|i now]; cbn [wstep] in ST.
    + destruct (znth (w_pcs w1) i) as [p|] eqn:EP; [|discriminate]. destruct (tstep g (w_sys w1) p a) as [[[s1 p1] ob1]| | |] eqn:ET; cbn [obind] in ST; try discriminate.
      injection ST as <- <-. cbn [w_sys w_pcs]. eapply thread_K; eauto. eapply tstep_tab; [exact (k_wf _ _ IH)|eauto].
    + destruct (_ && _); [|discriminate]. destruct (gc_bucket (w_sys w1) i now) as [[s1 ob1]| | |] eqn:EG; cbn [obind] in ST; try discriminate. injection ST as <- <-. cbn [w_sys w_pcs].
      destruct (gc_tab _ _ _ _ _ (k_wf _ _ IH) EG) as [T N]. apply (tab_K (w_sys w1) s1 (w_pcs w1) (w_pcs w1) [] [] []); auto; lia.
Qed.

Definition L (w : lworld) : Prop := forall j c again o i x, znth (l_pcs w) j = Some (Late c again o i x) ->
  ~ In o (flat_map fresh_of (map done_pc (l_pcs w))) /\ o < s_next (l_sys w) /\ (In o (stored_data (s_ct (l_sys w))) -> at_ (s_ct (l_sys w)) i x o).
Lemma keep n n' t t' ins o i x : NoDup (stored_data t) -> tabstep n n' t t' ins -> ~ In o ins -> (In o (stored_data t) -> at_ t i x o) -> In o (stored_data t') -> at_ t' i x o.
Proof.
  intros N (_ & _ & _ & M) NI A I. destruct (in_at _ _ I) as (NZ & i' & x' & A'). destruct (M _ _ _ A' NZ) as [B|B]; [|contradiction].
  destruct (at_one _ _ _ _ _ _ N NZ B (A (at_in _ _ _ _ B NZ))) as [-> ->]. exact A'.
Qed.
Lemma fresh_upd ps i p p' o : In o (flat_map fresh_of (zupd ps i p')) -> znth ps i = Some p -> In o (flat_map fresh_of ps) \/ In o (fresh_of p').
Proof.
  intros I Z. apply in_flat_map in I. destruct I as (q & I & F). apply In_znth in I. destruct I as [j J]. destruct (upd_cases _ _ _ _ _ J) as [(-> & ->)|(NE & J')]; [auto|].
  left. apply in_flat_map. exists q. split; [eapply znth_In; eauto|exact F].
Qed.
Lemma moves_in n n' f f' ins o : moves n n' f f' ins -> In o f' -> In o f \/ o = n.
Proof.
  intros (new & rest & P & NW) I. assert (I2 : In o (f ++ new)) by (eapply Permutation_in; [symmetry; exact P|apply in_or_app; right; apply in_or_app; auto]).
  apply in_app_or in I2. destruct I2 as [I2|I2]; [auto|]. destruct NW as [->|[-> _]]; [destruct I2|]. destruct I2 as [<-|[]]. auto.
Qed.
Lemma looks_at g s q a s2 c1 o ob c again i b x : winv (s_ct s) -> tstep g s q a = Ok (s2, PBody c1 o, ob) -> looks q a = Some (c, again) ->
  slot (t_buckets (s_ct s2)) (c_k c) = Ok i -> znth (t_buckets (s_ct s2)) i = Some b -> cell_of b (c_k c) = Some x -> o <> 0 /\ In o (stored_data (s_ct s2)) /\ at_ (s_ct s2) i x o.
Proof.
  intros W T LK SL ZB CO.
  assert (Y : exists now ob1, lookup_op s now (c_k c) = Ok (s2, o, ob1) /\ o <> 0).
  { destruct q; cbn [looks] in LK; try discriminate; injection LK as <- <-; cbn [tstep] in T.
    - destruct (lookup_op s (c_now (a_call a)) (c_k (a_call a))) as [[[s1 o1] ob1]| | |] eqn:E; cbn [obind] in T; try discriminate. destruct (Z.eqb_spec o1 0); [destruct (a_call a); discriminate|].
      injection T as <- _ <- <-. eauto.
    - destruct (lookup_op s (c_now c0) (c_k c0)) as [[[s1 o1] ob1]| | |] eqn:E; cbn [obind] in T; try discriminate. destruct (Z.eqb_spec o1 0); [discriminate|]. injection T as <- _ <- <-. eauto. }
  destruct Y as (now & ob1 & E & NZ). apply lookup_op_tab in E. destruct E as (ev & E & _). split; [exact NZ|]. split; [eapply lookup_stored; eauto|]. exists b. split; [exact ZB|]. eapply lookup_at; eauto.
Qed.
Lemma calm_L g n tr w : calm_exec g (lstart g n) tr w -> L w.
Proof.
  intros X. remember (lstart g n) as w0. induction X as [w|w tr w1 l ob w2 X IH ST ND]; intros j c again o i x E.
  - subst w. cbn [l_pcs lstart] in E. apply znth_In in E. apply repeat_spec in E. discriminate.
  - specialize (IH Heqw0). subst w. pose proof (exec_K _ _ _ _ (calm_done _ _ _ _ X)) as KK. assert (X2 : calm_exec g (lstart g n) (tr ++ ob) w2) by (econstructor; eauto).
    pose proof (exec_K _ _ _ _ (calm_done _ _ _ _ X2)) as KK2. cbn [done w_sys w_pcs] in KK, KK2. assert (N1 : NoDup (stored_data (s_ct (l_sys w1)))) by (eapply NoDup_left; exact (k_data _ _ KK)).
    destruct l as [j0 a seen|i0 now]; cbn [lwstep] in ST.
    + destruct (znth (l_pcs w1) j0) as [p|] eqn:EP; [|discriminate]. destruct (ltstep g (l_sys w1) p a seen) as [[[s1 p1] ob1]| | |] eqn:EL; cbn [obind] in ST; try discriminate.
      injection ST as <- <-. cbn [l_pcs l_sys] in *.
      assert (EPd : znth (map done_pc (l_pcs w1)) j0 = Some (done_pc p)) by (rewrite znth_map_done, EP; reflexivity). rewrite zupd_map_done in *.
      destruct p as [q|c0 again0 o0 i0 x0]; cbn [ltstep] in EL.
      * destruct (tstep g (l_sys w1) q a) as [[[s2 p2] ob2]| | |] eqn:ET; cbn [obind] in EL; try discriminate. cbn [done_pc] in EPd.
        destruct (upd_cases _ _ _ _ _ E) as [(-> & EQ)|(NE & E')].
        -- subst p1. destruct (looks q a) as [[c2 again2]|] eqn:LK; [|discriminate]. destruct p2; try discriminate.
           destruct (slot (t_buckets (s_ct s2)) (c_k c2)) as [i2| | |] eqn:SL; cbn [obind] in EL; try discriminate. destruct (aget (t_buckets (s_ct s2)) i2) as [b| | |] eqn:EB; cbn [obind] in EL; try discriminate.
           destruct (cell_of b (c_k c2)) as [x2|] eqn:CO; [|discriminate]. injection EL as <- <- <- <- <- <- <-. apply aget_ok in EB.
           destruct (looks_at _ _ _ _ _ _ _ _ _ _ _ _ _ (k_wf _ _ KK) ET LK SL EB CO) as (NZ & IN & AT). split; [|split; [apply (k_less _ _ KK2); apply in_or_app; auto|auto]].
           intros I. pose proof (k_data _ _ KK2) as D. clear -I IN D. induction (stored_data (s_ct s2)) as [|y l IHl]; [destruct IN|]. cbn [app] in D. apply NoDup_cons_iff in D. destruct D as [D1 D2].
           destruct IN as [->|IN]; [apply D1; apply in_or_app; auto|auto].
        -- assert (S2 : s1 = s2 /\ fresh_of (done_pc p1) = fresh_of p2).
           { destruct (looks q a) as [[c2 again2]|]; [|injection EL as <- <- <-; auto]. destruct p2; try (injection EL as <- <- <-; auto; fail).
             destruct (slot (t_buckets (s_ct s2)) (c_k c2)); cbn [obind] in EL; try discriminate. destruct (aget (t_buckets (s_ct s2)) a0); cbn [obind] in EL; try discriminate.
             destruct (cell_of a1 (c_k c2)); [|discriminate]. injection EL as <- <- <-. auto. }
           destruct S2 as [-> S2]. destruct (tstep_tab _ _ _ _ _ _ _ (k_wf _ _ KK) ET) as (ins & T & N & MV & IC). destruct (IH _ _ _ _ _ _ E') as (A1 & A2 & A3).
           assert (NF : ~ In o (fresh_of q)) by (intros I; apply A1; apply in_flat_map; exists q; split; [eapply znth_In; eauto|exact I]).
           split; [|split; [lia|]].
           ++ intros I. destruct (fresh_upd _ _ _ _ _ I EPd) as [I2|I2]; [auto|]. rewrite S2 in I2. destruct (moves_in _ _ _ _ _ _ MV I2) as [I3|I3]; [auto|lia].
           ++ intros I. eapply keep; eauto.
      * unfold late_read in EL. destruct (aget (t_buckets (s_ct (l_sys w1))) i0) as [b| | |]; cbn [obind] in EL; try discriminate.
        assert (S2 : s1 = l_sys w1 /\ fresh_of (done_pc p1) = [] /\ exists q, p1 = At q) by (destruct (_ =? 0); [destruct again0; [|destruct c0]|]; injection EL as <- <- <-; eauto).
        destruct S2 as (-> & S2 & q & ->). destruct (upd_cases _ _ _ _ _ E) as [(-> & EQ)|(NE & E')]; [discriminate|]. destruct (IH _ _ _ _ _ _ E') as (A1 & A2 & A3).
        split; [|auto]. intros I. destruct (fresh_upd _ _ _ _ _ I EPd) as [I2|I2]; [auto|]. rewrite S2 in I2. destruct I2.
    + destruct (_ && _); [|discriminate]. destruct (gc_bucket (l_sys w1) i0 now) as [[s1 ob1]| | |] eqn:EG; cbn [obind] in ST; try discriminate. injection ST as <- <-. cbn [l_pcs l_sys] in *.
      destruct (gc_tab _ _ _ _ _ (k_wf _ _ KK) EG) as [T N]. destruct (IH _ _ _ _ _ _ E) as (A1 & A2 & A3). split; [exact A1|]. split; [lia|]. intros I. eapply keep; eauto.
Qed.
Lemma bat_data b x d seen : NoDup (map c_mem (b_chain b)) -> bat b x d -> cell_data b x seen = d.
Proof.
  intros N. destruct x as [|m]; cbn [bat cell_data]; [auto|]. intros (e & I & <- & <-). assert (Q : chain_data (b_chain b) (c_mem e) = Some (c_data e)); [|rewrite Q; reflexivity].
  induction (b_chain b) as [|y l IHl]; [destruct I|]. cbn [map] in N. apply NoDup_cons_iff in N. destruct N as [N1 N2]. cbn [chain_data]. destruct I as [->|I]; [rewrite Z.eqb_refl; reflexivity|].
  destruct (Z.eqb_spec (c_mem y) (c_mem e)) as [EQ|]; [|auto]. exfalso. apply N1. rewrite EQ. apply in_map. exact I.
Qed.
Lemma chain_nodup t i b : NoDup (stored_buckets t) -> znth (t_buckets t) i = Some b -> NoDup (map c_mem (b_chain b)).
Proof.
  unfold stored_buckets. intros N Z. pose proof (flat_upd _ _ (fun b => map c_mem (b_chain b)) (t_buckets t) i b (mkBucket (mkCent [] 0 0 0 0) []) [] (map c_mem (b_chain b)) Z ltac:(rewrite app_nil_r; reflexivity)) as P.
  rewrite app_nil_r in P. apply (Permutation_NoDup P) in N. clear -N. induction (flat_map _ _) as [|y l IH]; [exact N|]. apply IH. cbn [app] in N. apply NoDup_cons_iff in N. tauto.
Qed.
Lemma only_removed g n tr w l : calm_exec g (lstart g n) tr w -> disturbed w l ->
  exists j a seen c again o i x, l = LLThread j a seen /\ znth (l_pcs w) j = Some (Late c again o i x) /\ ~ In o (stored_data (s_ct (l_sys w))).
Proof.
  intros X (j & a & seen & c & again & o & i & x & b & -> & P & Z & D). exists j, a, seen, c, again, o, i, x. split; [auto|]. split; [exact P|]. intros I. apply D.
  destruct (calm_L _ _ _ _ X _ _ _ _ _ _ P) as (_ & _ & A). destruct (A I) as (b' & Z' & B). rewrite Z in Z'. injection Z' as <-. apply bat_data; [|exact B].
  eapply chain_nodup; [|exact Z]. exact (k_mem _ _ (exec_K _ _ _ _ (calm_done _ _ _ _ X))).
Qed.
Lemma kept_calm g n tr w : kept_exec g (lstart g n) tr w -> calm_exec g (lstart g n) tr w.
Proof.
  intros X. remember (lstart g n) as w0. induction X as [w|w tr w1 l ob w2 X IH ST ET]; [constructor|]. specialize (IH Heqw0). econstructor; [exact IH|exact ST|]. intros D. subst w.
  destruct (only_removed _ _ _ _ _ IH D) as (j & a & seen & c & again & o & i & x & EL & P & NI). apply NI. eapply ET; eauto.
Qed.
