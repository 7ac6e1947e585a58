(** One queue (C92) *)
From Verif Require Import Base Lists IpKey_Model Conntrack_Model Conntrack_Spec Conntrack_Proofs Conntrack2_Proofs Frag_Model Frag_Spec Frag_Proofs Frag2_Proofs Frag3_Proofs Late_Model Late_Spec Late_Proofs Late3_Proofs Late4_Proofs.

Definition there (w : lworld) : Prop := forall j c again o i x, znth (l_pcs w) j = Some (Late c again o i x) -> In o (stored_data (s_ct (l_sys w))).
Lemma one_length g tr w : packets_exec g (lstart g 1) tr w -> zlen (l_pcs w) = 1.
Proof.
  intros X. remember (lstart g 1) as w0. induction X as [w|w tr w1 j a seen ob w2 X IH ST]; [subst w; reflexivity|]. specialize (IH Heqw0). cbn [lwstep] in ST.
  destruct (znth (l_pcs w1) j) as [p|]; [|discriminate]. destruct (ltstep g (l_sys w1) p a seen) as [[[s1 p1] ob1]| | |]; cbn [obind] in ST; try discriminate. injection ST as <- <-.
  cbn [l_pcs]. unfold zlen in *. rewrite zupd_length. exact IH.
Qed.
Lemma one_ok g tr w : packets_exec g (lstart g 1) tr w -> calm_exec g (lstart g 1) tr w /\ there w /\ prompt_exec g (start g 1) tr (done w).
Proof.
  intros X. remember (lstart g 1) as w0. induction X as [w|w tr w1 j a seen ob w2 X IH ST].
  - split; [constructor|]. subst w. split; [intros j c again o i x E; cbn [l_pcs lstart] in E; apply znth_In in E; apply repeat_spec in E; discriminate|]. constructor.
  - destruct (IH Heqw0) as (C & T & P). subst w. pose proof (one_length _ _ _ X) as LN.
    assert (ND : ~ disturbed w1 (LLThread j a seen)).
    { intros D. destruct (only_removed _ _ _ _ _ C D) as (j1 & a1 & seen1 & c & again & o & i & x & EL & E & NI). apply NI. eapply T; eauto. }
    assert (C2 : calm_exec g (lstart g 1) (tr ++ ob) w2) by (econstructor; eauto). split; [exact C2|].
    pose proof (exec_K _ _ _ _ (calm_done _ _ _ _ C)) as KK. cbn [done w_sys w_pcs] in KK. pose proof (all_late_ok _ _ _ _ (calm_lexec _ _ _ _ C)) as LO. pose proof ST as ST0. cbn [lwstep] in ST.
    destruct (znth (l_pcs w1) j) as [p|] eqn:EP; [|discriminate]. destruct (ltstep g (l_sys w1) p a seen) as [[[s1 p1] ob1]| | |] eqn:EL; cbn [obind] in ST; try discriminate. injection ST as <- <-.
    pose proof (znth_some_range _ _ _ _ EP) as RJ. split.
    + intros j' c again o i x E. cbn [l_pcs l_sys] in *. destruct (upd_cases _ _ _ _ _ E) as [(-> & EQ)|(NE & E')]; [|apply znth_some_range in E'; exfalso; lia]. subst p1.
      destruct p as [q|c0 again0 o0 i0 x0]; cbn [ltstep] in EL.
      * destruct (tstep g (l_sys w1) q a) as [[[s2 p2] ob2]| | |] eqn:ET; cbn [obind] in EL; try discriminate.
        destruct (looks q a) as [[c2 again2]|] eqn:LK; [|discriminate]. destruct p2; try discriminate.
        destruct (slot (t_buckets (s_ct s2)) (c_k c2)) as [i2| | |] eqn:SL; cbn [obind] in EL; try discriminate. destruct (aget (t_buckets (s_ct s2)) i2) as [b| | |] eqn:EB; cbn [obind] in EL; try discriminate.
        destruct (cell_of b (c_k c2)) as [x2|] eqn:CO; [|discriminate]. injection EL as <- <- <- <- <- <- <-. apply aget_ok in EB.
        destruct (looks_at _ _ _ _ _ _ _ _ _ _ _ _ _ (k_wf _ _ KK) ET LK SL EB CO) as (_ & IN & _). exact IN.
      * unfold late_read in EL. destruct (aget (t_buckets (s_ct (l_sys w1))) i0) as [b| | |]; cbn [obind] in EL; try discriminate. destruct (_ =? 0); [destruct again0; [|destruct c0]|]; discriminate.
    + pose proof (ltstep_done _ _ _ _ _ _ _ _ EL) as Q. destruct p as [q|c again o i x].
      * eapply (pe_step g _ tr (done w1) (LThread j a)); [exact P| |].
        -- cbn [wstep done w_pcs w_sys]. rewrite znth_map_done, EP. cbn [option_map done_pc]. rewrite Q. cbn [obind]. unfold done. cbn [l_sys l_pcs]. rewrite zupd_map_done. reflexivity.
        -- intros i o (c & W). cbn [done w_pcs] in W. rewrite znth_map_done in W. destruct (znth (l_pcs w1) i) as [q'|] eqn:E'; [|discriminate]. apply znth_some_range in E'. exists a. f_equal. lia.
      * destruct (late_cell g w1 _ j a seen c again o i x _ eq_refl EP ST0 ND) as (b & EB & EC). destruct (Q b EB EC (LO _ _ _ _ _ _ EP)) as (-> & -> & ->).
        rewrite app_nil_r. unfold done in *. cbn [l_sys l_pcs]. rewrite zupd_map_done. cbn [done_pc]. rewrite zupd_same; [exact P|]. rewrite znth_map_done, EP. reflexivity.
Qed.
Lemma lookup_cell t now k t' v ev : ctLookup t now k = Ok (t', v, ev) -> v <> 0 ->
  exists i b x, slot (t_buckets t') k = Ok i /\ znth (t_buckets t') i = Some b /\ cell_of b k = Some x.
Proof.
  unfold ctLookup. intros H N. destruct (slot (t_buckets t) k) as [j| | |] eqn:Es; try discriminate. cbn [obind] in H.
  destruct (aget (t_buckets t) j) as [b0| | |] eqn:Eb; try discriminate. apply aget_ok in Eb. cbn [obind] in H. destruct (lookupBucket b0 now) as [[b1 ev1] n].
  destruct (search b1 k now) as [[b' d]|] eqn:HS; injection H as <- <- <-; [|contradiction]. cbn [t_buckets].
  assert (C : exists x, cell_of b' k = Some x).
  { unfold search in HS. destruct (touch _ k now) as [[[|m l] d']|] eqn:E; try discriminate. injection HS as <- <-. apply touch_cell in E. destruct E as (l1 & e & l2 & EL & D & H & F).
    unfold cell_of. cbn [b_main b_chain]. destruct l1 as [|y l1]; cbn [app] in EL; injection EL as -> ->; [rewrite H; eauto|]. destruct (hit k y); [eauto|].
    clear -H. induction l1 as [|z l1 IH]; cbn [app chain_cell]; [rewrite H; eauto|]. destruct (hit k z); eauto. }
  destruct C as [x C]. exists j, b', x. split; [|split; [apply znth_zupd_eq; eapply znth_some_range; eauto|exact C]].
  unfold slot in *. unfold zlen in *. rewrite zupd_length. exact Es.
Qed.
(** A step that fails in the two-step look-up fails without. *)
Lemma fails_done g n tr w l : calm_exec g (lstart g n) tr w -> there w -> lfails g w l -> exists l', fails g (done w) l'.
Proof.
  intros C T (r & ST & NR). pose proof (exec_K _ _ _ _ (calm_done _ _ _ _ C)) as KK. cbn [done w_sys w_pcs] in KK. destruct l as [j a seen|i now]; cbn [lwstep] in ST.
  - destruct (znth (l_pcs w) j) as [p|] eqn:EP; [|discriminate]. injection ST as ST. destruct p as [q|c again o i x]; cbn [ltstep] in ST.
    + destruct (tstep g (l_sys w) q a) as [[[s2 p2] ob2]| | |] eqn:ET.
      2-4: exists (LThread j a); unfold fails; cbn [wstep done w_pcs w_sys]; rewrite znth_map_done, EP; cbn [option_map done_pc]; rewrite ET; cbn [obind]; eexists; (split; [reflexivity|]); intros y; discriminate.
      exfalso. cbn [obind] in ST. destruct (looks q a) as [[c2 again2]|] eqn:LK; [|cbn [obind] in ST; eapply NR; symmetry; exact ST].
      destruct p2; try (cbn [obind] in ST; eapply NR; symmetry; exact ST; fail).
      assert (Y : exists now ev, ctLookup (s_ct (l_sys w)) now (c_k c2) = Ok (s_ct s2, o, ev) /\ o <> 0).
      { assert (NZ : o <> 0) by (eapply step_found; [|exact ET]; congruence).
        destruct q; cbn [looks] in LK; try discriminate; injection LK as <- <-; cbn [tstep] in ET.
        - destruct (lookup_op (l_sys w) (c_now (a_call a)) (c_k (a_call a))) as [[[s3 o1] ob1]| | |] eqn:E; cbn [obind] in ET; try discriminate. destruct (Z.eqb_spec o1 0); [destruct (a_call a); discriminate|].
          injection ET as <- _ <- <-. apply lookup_op_tab in E. destruct E as (ev & E & _). eauto.
        - destruct (lookup_op (l_sys w) (c_now c0) (c_k c0)) as [[[s3 o1] ob1]| | |] eqn:E; cbn [obind] in ET; try discriminate. destruct (Z.eqb_spec o1 0); [discriminate|].
          injection ET as <- _ <- <-. apply lookup_op_tab in E. destruct E as (ev & E & _). eauto. }
      destruct Y as (now & ev & E & NZ). destruct (lookup_cell _ _ _ _ _ _ E NZ) as (i & b & x & S1 & S2 & S3). rewrite S1 in ST. cbn [obind] in ST. apply aget_ok in S2. rewrite S2 in ST. cbn [obind] in ST.
      rewrite S3 in ST. cbn [obind] in ST. eapply NR. symmetry. exact ST.
    + exfalso. destruct (calm_L _ _ _ _ C _ _ _ _ _ _ EP) as (_ & _ & A). destruct (A (T _ _ _ _ _ _ EP)) as (b & Z & _). unfold late_read in ST. apply aget_ok in Z. rewrite Z in ST. cbn [obind] in ST.
      destruct (_ =? 0); [destruct again; [|destruct c]|]; cbn [obind] in ST; eapply NR; symmetry; exact ST.
  - exists (LStats i now). unfold fails. cbn [wstep done w_pcs w_sys]. destruct (_ && _); [|discriminate]. injection ST as ST. destruct (gc_bucket (l_sys w) i now) as [[s1 ob1]| | |]; cbn [obind] in *.
    + exfalso. eapply NR. symmetry. exact ST.
    + eexists. split; [reflexivity|]. intros y. discriminate.
    + eexists. split; [reflexivity|]. intros y. discriminate.
    + eexists. split; [reflexivity|]. intros y. discriminate.
Qed.
Lemma one_queue g tr w l : conf_ok g -> packets_exec g (lstart g 1) tr w -> exec g (start g 1) tr (done w) /\ ~ lfails g w l.
Proof.
  intros G X. destruct (one_ok _ _ _ X) as (C & T & P). split; [exact (calm_done _ _ _ _ C)|]. intros F. destruct (fails_done _ _ _ _ _ C T F) as [l' F']. exact (prompt_safe _ _ _ _ _ G P F').
Qed.
