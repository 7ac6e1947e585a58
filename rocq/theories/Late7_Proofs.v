(** Calls one after the other (C92) *)
From Verif Require Import Base Lists IpKey_Model Conntrack_Model Conntrack_Spec Conntrack_Proofs Conntrack2_Proofs Frag_Model Frag_Spec Frag_Proofs Frag2_Proofs Frag3_Proofs Late_Model Late_Spec Late_Proofs Late3_Proofs Late4_Proofs Late5_Proofs.

Lemma calls_ok g n tr w : calls_exec g (lstart g n) tr w -> calm_exec g (lstart g n) tr w /\ there w /\ prompt_exec g (start g n) tr (done w).
Proof.
  intros X. remember (lstart g n) as w0. induction X as [w|w tr w1 l ob w2 X IH ST AL].
  - split; [constructor|]. subst w. split; [intros j c again o i x E; cbn [l_pcs lstart] in E; apply znth_In in E; apply repeat_spec in E; discriminate|].
    replace (done (lstart g n)) with (start g n); [constructor|]. unfold done, start, lstart. cbn [l_sys l_pcs]. f_equal. clear. induction n as [|n IH]; cbn; [reflexivity|f_equal; exact IH].
  - destruct (IH Heqw0) as (C & T & P). subst w.
    assert (ND : ~ disturbed w1 l).
    { intros D. destruct (only_removed _ _ _ _ _ C D) as (j1 & a1 & seen1 & c & again & o & i & x & EL & E & NI). apply NI. eapply T; eauto. }
    assert (C2 : calm_exec g (lstart g n) (tr ++ ob) w2) by (econstructor; eauto). split; [exact C2|].
    destruct l as [j a seen|i0 now].
    2: { split.
      - intros j c again o i x E. cbn [lwstep] in ST. destruct (_ && _); [|discriminate]. injection ST as ST. destruct (gc_bucket (l_sys w1) i0 now) as [[s1 ob1]| | |]; cbn [obind] in ST; try discriminate.
        injection ST as <- <-. cbn [l_pcs] in E. specialize (AL j _ E). discriminate.
      - eapply (pe_step g _ tr (done w1) (LStats i0 now)); [exact P| |].
        + cbn [wstep lwstep done w_pcs w_sys] in *. destruct (_ && _); [|discriminate]. injection ST as ST. destruct (gc_bucket (l_sys w1) i0 now) as [[s1 ob1]| | |]; cbn [obind] in *; try discriminate.
          injection ST as <- <-. reflexivity.
        + intros i o (c & W). cbn [done w_pcs] in W. rewrite znth_map_done in W. destruct (znth (l_pcs w1) i) as [q'|] eqn:E'; [|discriminate]. specialize (AL i _ E'). subst q'. discriminate. }
    pose proof (exec_K _ _ _ _ (calm_done _ _ _ _ C)) as KK. cbn [done w_sys w_pcs] in KK. pose proof (all_late_ok _ _ _ _ (calm_lexec _ _ _ _ C)) as LO. pose proof ST as ST0. cbn [lwstep] in ST.
    destruct (znth (l_pcs w1) j) as [p|] eqn:EP; [|discriminate]. destruct (ltstep g (l_sys w1) p a seen) as [[[s1 p1] ob1]| | |] eqn:EL; cbn [obind] in ST; try discriminate. injection ST as <- <-.
    pose proof (znth_some_range _ _ _ _ EP) as RJ. split.
    + intros j' c again o i x E. cbn [l_pcs l_sys] in *. destruct (upd_cases _ _ _ _ _ E) as [(-> & EQ)|(NE & E')]; [|specialize (AL j' _ E' NE); discriminate]. subst p1.
      destruct p as [q|c0 again0 o0 i0 x0]; cbn [ltstep] in EL.
      * destruct (tstep g (l_sys w1) q a) as [[[s2 p2] ob2]| | |] eqn:ET; cbn [obind] in EL; try discriminate.
        destruct (looks q a) as [[c2 again2]|] eqn:LK; [|discriminate]. destruct p2; try discriminate.
        destruct (slot (t_buckets (s_ct s2)) (c_k c2)) as [i2| | |] eqn:SL; cbn [obind] in EL; try discriminate. destruct (aget (t_buckets (s_ct s2)) i2) as [b| | |] eqn:EB; cbn [obind] in EL; try discriminate.
        destruct (cell_of b (c_k c2)) as [x2|] eqn:CO; [|discriminate]. injection EL as <- <- <- <- <- <- <-. apply aget_ok in EB.
        destruct (looks_at _ _ _ _ _ _ _ _ _ _ _ _ _ (k_wf _ _ KK) ET LK SL EB CO) as (_ & IN & _). exact IN.
      * unfold late_read in EL. destruct (aget (t_buckets (s_ct (l_sys w1))) i0) as [b| | |]; cbn [obind] in EL; try discriminate. destruct (_ =? 0); [destruct again0; [|destruct c0]|]; discriminate.
    + pose proof (ltstep_done _ _ _ _ _ _ _ _ EL) as Q. destruct p as [q|c again o i x].
      * eapply (pe_step g _ tr (done w1) (LThread j a)); [exact P| |].
        -- cbn [wstep done w_pcs w_sys]. rewrite znth_map_done, EP. cbn [option_map done_pc]. rewrite Q. cbn [obind]. unfold done. cbn [l_sys l_pcs]. rewrite zupd_map_done. reflexivity.
        -- intros i o (c & W). cbn [done w_pcs] in W. rewrite znth_map_done in W. destruct (znth (l_pcs w1) i) as [q'|] eqn:E'; [|discriminate]. destruct (Z.eq_dec i j) as [->|NE]; [exists a; reflexivity|]. specialize (AL i _ E' NE). subst q'. discriminate.
      * destruct (late_cell g w1 _ j a seen c again o i x _ eq_refl EP ST0 ND) as (b & EB & EC). destruct (Q b EB EC (LO _ _ _ _ _ _ EP)) as (-> & -> & ->).
        rewrite app_nil_r. unfold done in *. cbn [l_sys l_pcs]. rewrite zupd_map_done. cbn [done_pc]. rewrite zupd_same; [exact P|]. rewrite znth_map_done, EP. reflexivity.
Qed.
Lemma calls_safe g n tr w l : conf_ok g -> calls_exec g (lstart g n) tr w -> exec g (start g n) tr (done w) /\ ~ lfails g w l.
Proof.
  intros G X. destruct (calls_ok _ _ _ _ X) as (C & T & P). split; [exact (calm_done _ _ _ _ C)|]. intros F. destruct (fails_done _ _ _ _ _ C T F) as [l' F']. exact (prompt_safe _ _ _ _ _ G P F').
Qed.
