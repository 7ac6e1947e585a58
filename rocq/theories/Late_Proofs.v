(** What a look-up returns is what it found (C92): proofs. *)
From Verif Require Import Base Lists IpKey_Model Conntrack_Model Conntrack_Spec Frag_Model Frag_Spec Conntrack_Proofs Conntrack2_Proofs Frag_Proofs Frag2_Proofs Frag3_Proofs Late_Model Late_Spec.

Lemma znth_map_done l i : znth (map done_pc l) i = option_map done_pc (znth l i).
Proof. unfold znth. destruct (i <? 0); [reflexivity|]. apply nth_error_map. Qed.
Lemma zupd_map_done l i p : map done_pc (zupd l i p) = zupd (map done_pc l) i (done_pc p).
Proof. unfold zupd. destruct (i <? 0); [reflexivity|]. generalize (Z.to_nat i) as n. induction l as [|x l IH]; intros [|n]; cbn; [reflexivity|reflexivity|reflexivity|rewrite IH; reflexivity]. Qed.
Lemma zupd_same {A} (l : list A) i x : znth l i = Some x -> zupd l i x = l.
Proof.
  unfold znth, zupd. destruct (i <? 0); [reflexivity|]. generalize (Z.to_nat i) as n. induction l as [|y l IH]; intros [|n] E; cbn in *; try discriminate; [congruence|rewrite IH; auto].
Qed.

(** A step of a thread that reads what it found is a step of Frag_Model, or none. *)
Lemma ltstep_done g s p a seen s1 p1 ob : ltstep g s p a seen = Ok (s1, p1, ob) ->
  match p with
  | At q => tstep g s q a = Ok (s1, done_pc p1, ob)
  | Late c again o i x => forall b, znth (t_buckets (s_ct s)) i = Some b -> cell_data b x seen = o -> o <> 0 -> s1 = s /\ p1 = At (PBody c o) /\ ob = []
  end.
Proof.
  destruct p as [q|c again o i x]; cbn [ltstep].
  - destruct (tstep g s q a) as [[[s2 p2] ob2]| | |] eqn:E; cbn [obind]; try discriminate.
    destruct (looks q a) as [[c again]|] eqn:EL; [|intros X; injection X as <- <- <-; reflexivity].
    destruct p2 as [| | | | | | |c2 o| | | | | | | | | | |]; try (intros X; injection X as <- <- <-; reflexivity).
    destruct (slot (t_buckets (s_ct s2)) (c_k c)) as [i| | |]; cbn [obind]; try discriminate. destruct (aget (t_buckets (s_ct s2)) i) as [b| | |]; cbn [obind]; try discriminate.
    destruct (cell_of b (c_k c)) as [x|]; [|discriminate]. intros X. injection X as <- <- <-. cbn [done_pc].
    assert (EC : c2 = c); [|rewrite EC; reflexivity].
    destruct q; try discriminate; cbn [looks] in EL; injection EL as <- <-; cbn [tstep] in E.
    + destruct (lookup_op s (c_now (a_call a)) (c_k (a_call a))) as [[[s3 o3] ob3]| | |]; cbn [obind] in E; try discriminate.
      destruct (o3 =? 0); [destruct (a_call a)|]; injection E; congruence.
    + destruct (lookup_op s (c_now c0) (c_k c0)) as [[[s3 o3] ob3]| | |]; cbn [obind] in E; try discriminate. destruct (o3 =? 0); injection E; congruence.
  - unfold late_read. intros X b EB EC NZ. destruct (aget (t_buckets (s_ct s)) i) as [b'| | |] eqn:EA; cbn [obind] in X; try discriminate. apply aget_ok in EA.
    assert (b' = b) by congruence. subst b'. rewrite EC in X. destruct (Z.eqb_spec o 0) as [|_]; [contradiction|]. injection X as <- <- <-. auto.
Qed.
Lemma step_found g s q a s1 c o ob : looks q a <> None -> tstep g s q a = Ok (s1, PBody c o, ob) -> o <> 0.
Proof.
  destruct q; cbn [looks tstep]; intros L E; try congruence.
  - destruct (lookup_op s (c_now (a_call a)) (c_k (a_call a))) as [[[s3 o3] ob3]| | |]; cbn [obind] in E; try discriminate.
    destruct (Z.eqb_spec o3 0); [destruct (a_call a)|]; try discriminate; injection E; congruence.
  - destruct (lookup_op s (c_now c0) (c_k c0)) as [[[s3 o3] ob3]| | |]; cbn [obind] in E; try discriminate. destruct (Z.eqb_spec o3 0); try discriminate; injection E; congruence.
Qed.
Definition late_ok (w : lworld) : Prop := forall j c again o i x, znth (l_pcs w) j = Some (Late c again o i x) -> o <> 0.
Lemma ltstep_nz g s p a seen s1 c again o i x ob : ltstep g s p a seen = Ok (s1, Late c again o i x, ob) -> o <> 0.
Proof.
  destruct p as [q|c0 again0 o0 i0 x0]; cbn [ltstep].
  - destruct (tstep g s q a) as [[[s2 p2] ob2]| | |] eqn:E; cbn [obind]; try discriminate.
    destruct (looks q a) as [[c2 again2]|] eqn:EL; [|discriminate]. destruct p2; try discriminate.
    destruct (slot (t_buckets (s_ct s2)) (c_k c2)); cbn [obind]; try discriminate. destruct (aget (t_buckets (s_ct s2)) a0); cbn [obind]; try discriminate.
    destruct (cell_of a1 (c_k c2)); [|discriminate]. intros X. injection X as <- <- <- <- <- <- <-. eapply step_found; [|exact E]. congruence.
  - unfold late_read. destruct (aget (t_buckets (s_ct s)) i0); cbn [obind]; try discriminate. destruct (_ =? 0); [destruct again0; [discriminate|destruct c0; discriminate]|discriminate].
Qed.
Lemma upd_cases {A} (l : list A) p x n y : znth (zupd l p x) n = Some y -> n = p /\ y = x \/ n <> p /\ znth l n = Some y.
Proof.
  intros X. destruct (Z.eq_dec p n) as [->|NE]; [|rewrite znth_zupd_neq in X by auto; auto].
  pose proof (znth_some_range _ _ _ _ X) as R. unfold zlen in R. rewrite zupd_length in R. rewrite znth_zupd_eq in X by exact R. left. split; [auto|congruence].
Qed.
Lemma all_late_ok g n tr w : lexec g (lstart g n) tr w -> late_ok w.
Proof.
  intros X. remember (lstart g n) as w0. induction X as [w|w tr w1 l ob w2 X IH ST]; intros j c again o i x E.
  - subst w. cbn [l_pcs lstart] in E. apply znth_In in E. apply repeat_spec in E. discriminate.
  - specialize (IH Heqw0). destruct l as [j0 a seen|i0 now]; cbn [lwstep] in ST.
    + destruct (znth (l_pcs w1) j0) as [p|] eqn:EP; [|discriminate]. destruct (ltstep g (l_sys w1) p a seen) as [[[s1 p1] ob1]| | |] eqn:EL; cbn [obind] in ST; try discriminate.
      injection ST as <- <-. cbn [l_pcs] in E. destruct (upd_cases _ _ _ _ _ E) as [(-> & EQ)|(NE & E')]; [|eapply IH; eauto]. subst p1. eapply ltstep_nz; eauto.
    + destruct (_ && _); [|discriminate]. destruct (gc_bucket (l_sys w1) i0 now) as [[s1 ob1]| | |]; cbn [obind] in ST; try discriminate. injection ST as <- <-. eapply IH; eauto.
Qed.
Lemma calm_lexec g w0 tr w : calm_exec g w0 tr w -> lexec g w0 tr w.
Proof. intros X. induction X; econstructor; eauto. Qed.
Lemma late_cell g w l j a seen c again o i x r : l = LLThread j a seen -> znth (l_pcs w) j = Some (Late c again o i x) -> lwstep g w l = Some (Ok r) -> ~ disturbed w l ->
  exists b, znth (t_buckets (s_ct (l_sys w))) i = Some b /\ cell_data b x seen = o.
Proof.
  intros -> EP ST ND. cbn [lwstep] in ST. rewrite EP in ST. cbn [ltstep] in ST. unfold late_read in ST.
  destruct (aget (t_buckets (s_ct (l_sys w))) i) as [b| | |] eqn:EA; cbn [obind] in ST; try discriminate. apply aget_ok in EA. exists b. split; [exact EA|].
  destruct (Z.eq_dec (cell_data b x seen) o) as [|NE]; [auto|]. exfalso. apply ND. exists j, a, seen, c, again, o, i, x, b. auto.
Qed.
Lemma calm_done g n tr w : calm_exec g (lstart g n) tr w -> exec g (start g n) tr (done w).
Proof.
  intros X. remember (lstart g n) as w0. induction X as [w|w tr w1 l ob w2 X IH ST ND].
  - subst w. unfold done, lstart. cbn [l_sys l_pcs]. assert (E : map done_pc (repeat (At Idle) n) = repeat Idle n) by (clear; induction n; cbn; congruence). rewrite E. constructor.
  - specialize (IH Heqw0). subst w. pose proof (all_late_ok _ _ _ _ (calm_lexec _ _ _ _ X)) as LO. pose proof ST as ST0. destruct l as [j a seen|i0 now]; cbn [lwstep] in ST.
    + destruct (znth (l_pcs w1) j) as [p|] eqn:EP; [|discriminate]. destruct (ltstep g (l_sys w1) p a seen) as [[[s1 p1] ob1]| | |] eqn:EL; cbn [obind] in ST; try discriminate.
      injection ST as <- <-. pose proof (ltstep_done _ _ _ _ _ _ _ _ EL) as K. destruct p as [q|c again o i x].
      * eapply ex_step; [exact IH|]. instantiate (1 := LThread j a). cbn [wstep done w_pcs w_sys]. rewrite znth_map_done, EP. cbn [option_map done_pc]. rewrite K. cbn [obind].
        unfold done. cbn [l_sys l_pcs]. rewrite zupd_map_done. reflexivity.
      * destruct (late_cell g w1 _ j a seen c again o i x _ eq_refl EP ST0 ND) as (b & EB & EC). destruct (K b EB EC (LO _ _ _ _ _ _ EP)) as (-> & -> & ->).
        rewrite app_nil_r. unfold done in *. cbn [l_sys l_pcs]. rewrite zupd_map_done. cbn [done_pc]. rewrite zupd_same; [exact IH|]. rewrite znth_map_done, EP. reflexivity.
    + eapply ex_step; [exact IH|]. instantiate (1 := LStats i0 now). cbn [wstep done w_pcs w_sys]. destruct (_ && _); [|discriminate].
      destruct (gc_bucket (l_sys w1) i0 now) as [[s1 ob1]| | |]; cbn [obind] in *; try discriminate. injection ST as <- <-. reflexivity.
Qed.

(** ** The cell that was found holds the object. *)
Lemma touch_cell l k now l' d : touch l k now = Some (l', d) -> exists l1 e l2, l' = l1 ++ e :: l2 /\ c_data e = d /\ hit k e = true /\ Forall (fun e => hit k e = false) l1.
Proof.
  revert l'. induction l as [|e l IH]; intros l' T; cbn [touch] in T; [discriminate|]. destruct (hit k e) eqn:H.
  - injection T as <- <-. exists [], (set_ref e now), l. repeat split; auto.
  - destruct (touch l k now) as [[r d']|]; [|discriminate]. injection T as <- <-. destruct (IH r eq_refl) as (l1 & e1 & l2 & -> & E & H1 & F). exists (e :: l1), e1, l2. repeat split; auto.
Qed.
Lemma chain_cell_data l k x : chain_cell l k = Some x -> NoDup (map c_mem l) -> exists m e, x = Over m /\ In e l /\ hit k e = true /\ chain_data l m = Some (c_data e).
Proof.
  induction l as [|e l IH]; cbn [chain_cell]; intros H N; [discriminate|]. cbn [map] in N. inversion N as [|? ? N1 N2]; subst. destruct (hit k e) eqn:HE.
  - injection H as <-. exists (c_mem e), e. cbn [chain_data]. rewrite Z.eqb_refl. repeat split; auto. left; auto.
  - destruct (IH H N2) as (m & e1 & -> & I & H1 & D). exists m, e1. repeat split; auto; [right; auto|]. cbn [chain_data]. destruct (Z.eqb_spec (c_mem e) m) as [EM|]; [|exact D].
    exfalso. apply N1. rewrite EM. clear -D. induction l as [|y l IH]; cbn in D; [discriminate|]. destruct (Z.eqb_spec (c_mem y) m); [left; auto|right; auto].
Qed.
