(** More proofs about the connection table: histories, conservation. *)
From Coq Require Import Permutation.
From Verif Require Import Base Lists IpKey_Model Conntrack_Model Conntrack_Spec Conntrack_Proofs.

(** ** ctStats *)
Lemma gc_all_spec : forall l now l' ev n a, gc_all l now = (l', ev, n, a) -> (forall b, In b l -> wfb b) ->
  zlen l' = zlen l /\
  (forall i b', znth l' i = Some b' -> exists b, znth l i = Some b /\ wfb b' /\ bents b' = filter (fresh now) (bents b)) /\
  a = zlen (flat_map bents l') /\
  Permutation (flat_map bucket_data l) (flat_map bucket_data l' ++ freed_data ev) /\
  Permutation (flat_map (fun b => map c_mem (b_chain b)) l) (flat_map (fun b => map c_mem (b_chain b)) l' ++ freed_buckets ev) /\
  allocated ev = [] /\
  (flat_map bents l' = filter (fresh now) (flat_map bents l)) /\
  (forall b', In b' l' -> wfb b').
Proof.
  induction l as [|b l IH]; intros now l' ev n a H W; cbn in H.
  - injection H as <- <- <- <-. cbn. split; [reflexivity|]. split; [intros i b' Hb; destruct (znth_some_range _ _ _ _ Hb); unfold zlen in *; cbn in *; lia|].
    do 5 (split; [reflexivity || constructor|]). intros b' [].
  - destruct (bucketGC b now) as [[[b' ev1] n1] a1] eqn:E1. destruct (gc_all l now) as [[[r' ev2] n2] a2] eqn:E2.
    injection H as <- <- <- <-.
    destruct (bucketGC_spec _ _ _ _ _ _ E1 (W b (or_introl eq_refl))) as [G1 [G2 [G3 [G4 [G5 [G6 [G7 G8]]]]]]].
    destruct (IH _ _ _ _ _ E2) as [I1 [I2 [I3 [I4 [I5 [I6 [I7 I8]]]]]]]; [intros; apply W; right; assumption|].
    split; [unfold zlen in *; cbn [length]; lia|]. split.
    { intros i b1 Hi. destruct (Z.eq_dec i 0) as [->|Hne].
      - change (Some b' = Some b1) in Hi. injection Hi as <-. exists b. auto.
      - pose proof (znth_some_range _ _ _ _ Hi) as Hr.
        assert (Hsh : forall A (x : A) y, znth (x :: y) i = znth y (i - 1)).
        { intros A x y. unfold znth. destruct (i <? 0) eqn:E3; [lia|]. destruct (i - 1 <? 0) eqn:E4; [lia|].
          replace (Z.to_nat i) with (S (Z.to_nat (i - 1))) by lia. reflexivity. }
        rewrite Hsh in Hi. rewrite Hsh. apply I2. assumption. }
    split; [cbn [flat_map]; unfold zlen in *; rewrite app_length; lia|].
    split.
    { cbn [flat_map]. rewrite freed_data_app, G6, I4. rewrite <- !app_assoc. apply Permutation_app_head.
      rewrite !app_assoc. apply Permutation_app_tail. apply Permutation_app_comm. }
    split.
    { cbn [flat_map]. rewrite freed_buckets_app, G7, I5. rewrite <- !app_assoc. apply Permutation_app_head.
      rewrite !app_assoc. apply Permutation_app_tail. apply Permutation_app_comm. }
    split; [rewrite allocated_app, G8, I6; reflexivity|]. split; [cbn [flat_map]; rewrite filter_app, G3, I7; reflexivity|].
    intros b1 [<-|Hb]; auto.
Qed.

Lemma inv_In : forall size now t b, inv size now t -> In b (t_buckets t) -> wfb b.
Proof. intros size now t b I Hb. apply In_znth in Hb. destruct Hb as [i Hi]. exact (i_wf _ _ _ I _ _ Hi). Qed.

Lemma in_tab_flat : forall t c, in_tab t c <-> In c (flat_map bents (t_buckets t)).
Proof.
  intros t c. rewrite in_flat_map. split.
  - intros [i [b [Hb Hc]]]. exists b. split; [eapply znth_In; eauto|assumption].
  - intros [b [Hb Hc]]. apply In_znth in Hb. destruct Hb as [i Hi]. exists i, b. auto.
Qed.

Lemma tab_keys_nodup_gen : forall size l off, 
  (forall i b, znth l i = Some b -> wfb b) ->
  (forall i b c, znth l i = Some b -> In c (bents b) -> djb2 (c_key c) mod size = off + i) ->
  NoDup (map c_key (flat_map bents l)).
Proof.
  intros size. induction l as [|b l IH]; intros off W S; [constructor|].
  assert (Hsh : forall A (x : A) y i, 0 <= i -> znth (x :: y) (i + 1) = znth y i).
  { intros A x y i Hi. unfold znth. destruct (i + 1 <? 0) eqn:E3; [lia|]. destruct (i <? 0) eqn:E4; [lia|].
    replace (Z.to_nat (i + 1)) with (Datatypes.S (Z.to_nat i)) by lia. reflexivity. }
  cbn [flat_map]. rewrite map_app. apply NoDup_app_remove_l with (l := []) || idtac.
  assert (Hnd : forall (x y : list ckey), NoDup x -> NoDup y -> (forall k, In k x -> In k y -> False) -> NoDup (x ++ y)).
  { induction x as [|k x IHx]; intros y Hx Hy Hd; [assumption|]. cbn. apply NoDup_cons_iff in Hx. destruct Hx as [Ha Hb].
    constructor; [|apply IHx; auto; intros k' H1 H2; apply (Hd k'); [right|]; assumption].
    intro Hi. apply in_app_or in Hi. destruct Hi as [Hi|Hi]; [contradiction|]. apply (Hd k); [left; reflexivity|assumption]. }
  apply Hnd.
  - apply bents_keys_nodup. apply (W 0). reflexivity.
  - apply (IH (off + 1)).
    + intros i b' Hi. pose proof (znth_some_range _ _ _ _ Hi). apply (W (i + 1)). rewrite Hsh by lia. assumption.
    + intros i b' c Hi Hc. pose proof (znth_some_range _ _ _ _ Hi). rewrite (S (i + 1) b' c); [lia| |assumption].
      rewrite Hsh by lia. assumption.
  - intros k H1 H2. apply in_map_iff in H1. destruct H1 as [c1 [E1 H1]]. apply in_map_iff in H2. destruct H2 as [c2 [E2 H2]].
    apply in_flat_map in H2. destruct H2 as [b' [Hb' Hc2]]. apply In_znth in Hb'. destruct Hb' as [i Hi].
    pose proof (znth_some_range _ _ _ _ Hi).
    assert (A1 := S 0 b c1 eq_refl H1). assert (A2 := S (i + 1) b' c2 ltac:(rewrite Hsh by lia; assumption) Hc2).
    rewrite E1 in A1. rewrite E2 in A2. lia.
Qed.

Lemma tab_keys_nodup : forall size now t, inv size now t -> NoDup (map c_key (flat_map bents (t_buckets t))).
Proof.
  intros size now t I. apply (tab_keys_nodup_gen size _ 0).
  - exact (i_wf _ _ _ I).
  - intros i b c Hb Hc. rewrite (i_slot _ _ _ I _ _ _ Hb Hc). lia.
Qed.

Lemma stats_step : forall size now t m, inv size now t -> 0 <= now < two64 -> rel now t m ->
  let '(t', v, ev) := ctStats t now in spec_step m (OStats now) v m /\ inv size now t' /\ rel now t' m.
Proof.
  intros size now t m I Hn R. unfold ctStats. destruct (gc_all (t_buckets t) now) as [[[l' ev] n] a] eqn:E.
  destruct (gc_all_spec _ _ _ _ _ _ E) as [G1 [G2 [G3 [_ [_ [_ [G4 _]]]]]]]; [intros; eapply inv_In; eauto|].
  assert (Hin : forall i b' c, znth l' i = Some b' -> In c (bents b') -> exists b, znth (t_buckets t) i = Some b /\ In c (bents b)).
  { intros i b' c Hi Hc. destruct (G2 i b' Hi) as [b [Hb [_ HB]]]. exists b. split; [assumption|]. rewrite HB in Hc. apply filter_In in Hc. tauto. }
  assert (I' : inv size now (mkCt l' (gcs (t_stats t) n))).
  { destruct I as [J1 J2 J3 J4 J5]. constructor; cbn [t_buckets]; [lia|assumption| | |].
    - intros i b' Hi. destruct (G2 i b' Hi) as [b [_ [HW _]]]. assumption.
    - intros i b' c Hi Hc. destruct (Hin i b' c Hi Hc) as [b [Hb Hc']]. eauto.
    - intros i b' c Hi Hc. destruct (Hin i b' c Hi Hc) as [b [Hb Hc']]. eauto. }
  assert (Hfr : forall c, in_tab (mkCt l' (gcs (t_stats t) n)) c <-> in_tab t c /\ now - c_ref c <= c_ttl c).
  { intro c. rewrite !in_tab_flat. cbn [t_buckets]. rewrite G4, filter_In. split; intros [H1 H2]; (split; [assumption|]).
    - apply in_tab_flat in H1. destruct H1 as [i [b [Hb Hc]]]. apply (stale_fresh c now); auto; [|lia]. apply (i_time _ _ _ I _ _ _ Hb Hc).
    - apply in_tab_flat in H1. destruct H1 as [i [b [Hb Hc]]]. apply (stale_fresh c now); auto; [|lia]. apply (i_time _ _ _ I _ _ _ Hb Hc). }
  split; [|split; [assumption|]].
  - subst a. replace (zlen (flat_map bents l')) with (zlen (map c_key (flat_map bents l'))) by (apply zlen_map).
    apply sp_stats.
    + exact (tab_keys_nodup _ _ _ I').
    + intro k. rewrite in_map_iff. destruct R as [R1 R2]. split.
      * intros [c [Hk Hc]]. pose proof (proj1 (Hfr c) (proj2 (in_tab_flat (mkCt l' (gcs (t_stats t) n)) c) Hc)) as [Hc1 Hc2].
        exists (ent_of c). split; [rewrite <- Hk; apply R1; assumption|exact Hc2].
      * intros [e [He1 He2]]. destruct (R2 k e He1 He2) as [c [Hc [Hck Hce]]]. exists c. split; [assumption|].
        apply (in_tab_flat (mkCt l' (gcs (t_stats t) n)) c). apply Hfr. split; [assumption|]. rewrite <- Hce in He2. exact He2.
  - destruct R as [R1 R2]. split.
    + intros c Hc. apply R1. apply Hfr in Hc. tauto.
    + intros k e He1 He2. destruct (R2 k e He1 He2) as [c [Hc [Hck Hce]]]. exists c. split; [|auto].
      apply Hfr. split; [assumption|]. rewrite <- Hce in He2. exact He2.
Qed.

(** ** Histories: C19 *)
Lemma create_inv : forall size, 0 < size -> inv size 0 (ctCreate size).
Proof.
  intros size H.
  assert (Hb : forall i b, znth (t_buckets (ctCreate size)) i = Some b -> b = mkBucket (mkCent (repeat 0 40) 0 0 0 0) []).
  { intros i b Hb. apply znth_In in Hb. cbn [ctCreate t_buckets] in Hb. apply repeat_spec in Hb. assumption. }
  constructor; [cbn [ctCreate t_buckets]; rewrite zlen_repeat; lia|assumption| | |].
  - intros i b Hi. apply Hb in Hi. subst b. constructor; cbn; [constructor|auto|intros c []].
  - intros i b c Hi Hc. apply Hb in Hi. subst b. destruct Hc.
  - intros i b c Hi Hc. apply Hb in Hi. subst b. destruct Hc.
Qed.
Lemma create_rel : forall size, rel 0 (ctCreate size) empty.
Proof.
  intro size. split; [|intros k e H; discriminate].
  intros c [i [b [Hb Hc]]]. apply znth_In in Hb. cbn [ctCreate t_buckets] in Hb. apply repeat_spec in Hb. subst b. destruct Hc.
Qed.

Lemma run_refines : forall ops size t0 t m, inv size t0 t -> 0 <= t0 -> rel t0 t m -> clock_from t0 ops -> ttls_ok ops ->
  exists t' vs ev m', crun t ops = Ok (t', vs, ev) /\ spec_run m ops vs m'.
Proof.
  induction ops as [|o ops IH]; intros size t0 t m I H0 R Hc Ht.
  - do 4 eexists. split; [reflexivity|constructor].
  - destruct Hc as [Ho Hc].
    assert (I' := inv_later _ _ (op_now o) _ I ltac:(lia)). assert (R' := rel_later _ (op_now o) _ _ R ltac:(lia)).
    assert (Hst : exists t1 v ev m1, cstep t o = Ok (t1, v, ev) /\ spec_step m o v m1 /\ inv size (op_now o) t1 /\ rel (op_now o) t1 m1).
    { destruct o as [now k|now k ttl d al|now k|now]; cbn [op_now cstep] in *.
      - apply lookup_step; auto; lia.
      - apply insert_step; auto; [lia|]. apply (Ht now k ttl d al). left. reflexivity.
      - destruct (remove_step size now t m k I' ltac:(lia) R') as [t1 [ev [H1 [H2 H3]]]]. rewrite H1. cbn [obind].
        do 4 eexists. split; [reflexivity|]. split; [apply sp_remove|]. auto.
      - pose proof (stats_step size now t m I' ltac:(lia) R') as H. destruct (ctStats t now) as [[t1 v] ev].
        do 4 eexists. split; [reflexivity|]. destruct H as [H1 H2]. split; [exact H1|exact H2]. }
    destruct Hst as [t1 [v [ev [m1 [H1 [H2 [H3 H4]]]]]]].
    destruct (IH size (op_now o) t1 m1 H3 ltac:(lia) H4 Hc) as [t2 [vs [ev2 [m2 [H5 H6]]]]].
    { intros now k ttl d al Hi. apply (Ht now k ttl d al). right. assumption. }
    do 4 eexists. cbn [crun]. rewrite H1. cbn [obind]. rewrite H5. cbn [obind]. split; [reflexivity|].
    econstructor; eauto.
Qed.

Lemma map_with_ttl : forall size ops, 0 < size -> clock_from 0 ops -> ttls_ok ops ->
  exists t vs ev m, crun (ctCreate size) ops = Ok (t, vs, ev) /\ spec_run empty ops vs m.
Proof.
  intros size ops Hs Hc Ht. eapply run_refines; eauto; [apply create_inv; assumption|lia|apply create_rel].
Qed.

(** ** Conservation: C20, C21 *)
Definition winv (t : ct) : Prop := forall i b, znth (t_buckets t) i = Some b -> wfb b.

Lemma winv_upd : forall t i b' s, winv t -> wfb b' -> winv (mkCt (zupd (t_buckets t) i b') s).
Proof.
  intros t i b' s W Hb j b Hj. cbn [t_buckets] in Hj. rewrite znth_zupd in Hj.
  destruct ((i =? j) && (0 <=? i) && (i <? zlen (t_buckets t))); [|exact (W j b Hj)].
  injection Hj as <-. assumption.
Qed.

Lemma znth_split : forall A (l : list A) i b, znth l i = Some b ->
  exists a r, l = a ++ b :: r /\ forall b', zupd l i b' = a ++ b' :: r.
Proof.
  intros A l i b H. unfold znth in H. destruct (i <? 0) eqn:E; [discriminate|].
  unfold zupd. rewrite E. revert H. generalize (Z.to_nat i). clear. intro n. revert l.
  induction n as [|n IH]; intros [|x l] H; try discriminate; cbn in H.
  - injection H as ->. exists [], l. auto.
  - destruct (IH l H) as [a [r [-> Hu]]]. exists (x :: a), r. split; [reflexivity|]. intro b'. cbn. f_equal. apply Hu.
Qed.

Lemma flat_upd : forall A B (f : A -> list B) l i b b' X Y, znth l i = Some b ->
  Permutation (f b ++ X) (f b' ++ Y) -> Permutation (flat_map f l ++ X) (flat_map f (zupd l i b') ++ Y).
Proof.
  intros A B f l i b b' X Y H P. destruct (znth_split _ _ _ _ H) as [a [r [-> Hu]]]. rewrite Hu.
  rewrite !flat_map_app. cbn [flat_map]. rewrite <- !app_assoc. apply Permutation_app_head.
  rewrite (Permutation_app_comm (flat_map f r) X), (Permutation_app_comm (flat_map f r) Y).
  rewrite !app_assoc. apply Permutation_app_tail. assumption.
Qed.

Definition ins1 (o : cop) (v : Z) : list Z := inserted [o] [v].

Lemma step_conserves : forall t o t' v ev, winv t -> cstep t o = Ok (t', v, ev) ->
  winv t' /\
  Permutation (stored_data t ++ ins1 o v) (stored_data t' ++ freed_data ev) /\
  Permutation (stored_buckets t ++ allocated ev) (stored_buckets t' ++ freed_buckets ev).
Proof.
  intros t o t' v ev W H. destruct o as [now k|now k ttl d al|now k|now]; cbn [cstep] in H; unfold ins1; cbn [inserted].
  - unfold ctLookup in H. destruct (slot (t_buckets t) k) as [i| | |]; try discriminate. cbn [obind] in H.
    destruct (aget (t_buckets t) i) as [b| | |] eqn:Eb; try discriminate. apply aget_ok in Eb. cbn [obind] in H.
    destruct (lookupBucket b now) as [[b1 ev1] n] eqn:HL.
    destruct (lookupBucket_spec _ _ _ _ _ HL (W _ _ Eb)) as [L1 [L2 [L3 [L4 [L5 [L6 L7]]]]]].
    destruct (search b1 k now) as [[b' d]|] eqn:HS; injection H as <- <- <-.
    + destruct (search_some _ _ _ _ _ HS L1) as [S1 [S2 [S3 _]]].
      split; [apply winv_upd; assumption|]. rewrite L7. unfold stored_data, stored_buckets. cbn [t_buckets]. split.
      * apply (flat_upd _ _ _ _ _ b); [assumption|]. rewrite app_nil_r, S2. assumption.
      * apply (flat_upd _ _ _ _ _ b); [assumption|]. rewrite app_nil_r, S3. assumption.
    + split; [apply winv_upd; assumption|]. rewrite L7. unfold stored_data, stored_buckets. cbn [t_buckets]. split.
      * apply (flat_upd _ _ _ _ _ b); [assumption|]. rewrite app_nil_r. assumption.
      * apply (flat_upd _ _ _ _ _ b); [assumption|]. rewrite app_nil_r. assumption.
  - unfold ctInsertWithTTL in H. destruct (d =? 0) eqn:Ed; [injection H as <- <- <-; cbn; auto|].
    destruct (slot (t_buckets t) k) as [i| | |]; try discriminate. cbn [obind] in H.
    destruct (aget (t_buckets t) i) as [b| | |] eqn:Eb; try discriminate. apply aget_ok in Eb. cbn [obind] in H.
    destruct (lookupBucket b now) as [[b1 ev1] n] eqn:HL.
    destruct (lookupBucket_spec _ _ _ _ _ HL (W _ _ Eb)) as [L1 [L2 [L3 [L4 [L5 [L6 L7]]]]]].
    destruct (search b1 k now) as [[b' d']|] eqn:HS; [injection H as <- <- <-|].
    + destruct (search_some _ _ _ _ _ HS L1) as [S1 [S2 [S3 _]]].
      split; [apply winv_upd; assumption|]. rewrite L7. unfold stored_data, stored_buckets. cbn [t_buckets]. split.
      * apply (flat_upd _ _ _ _ _ b); [assumption|]. change (1 =? 0) with false. cbv iota. rewrite app_nil_r, S2. assumption.
      * apply (flat_upd _ _ _ _ _ b); [assumption|]. rewrite app_nil_r, S3. assumption.
    + pose proof (search_none _ _ _ HS) as Hno.
      destruct (c_data (b_main b1) =? 0) eqn:Em; [injection H as <- <- <-|destruct al as [mem|]; injection H as <- <- <-].
      * destruct (insert_main_spec b1 k now ttl d (c_mem (b_main b1)) L1 ltac:(lia) ltac:(lia) Hno) as [W' HB].
        split; [apply winv_upd; assumption|]. rewrite L7. unfold stored_data, stored_buckets. cbn [t_buckets]. split.
        -- apply (flat_upd _ _ _ _ _ b); [assumption|]. change (0 =? 0) with true. cbv iota. rewrite L5.
           rewrite (bucket_data_eq (mkBucket _ _)). rewrite HB. cbn [map]. rewrite <- (bucket_data_eq b1).
           rewrite Permutation_app_comm. reflexivity.
        -- apply (flat_upd _ _ _ _ _ b); [assumption|]. rewrite app_nil_r. assumption.
      * destruct (insert_chain_spec b1 k now ttl d mem L1 ltac:(lia) ltac:(lia) Hno) as [W' [_ HP]].
        split; [apply winv_upd; assumption|]. rewrite allocated_app, freed_data_app, freed_buckets_app, L7. cbn [app allocated freed_data freed_buckets].
        rewrite !app_nil_r. unfold stored_data, stored_buckets. cbn [t_buckets]. split.
        -- apply (flat_upd _ _ _ _ _ b); [assumption|]. change (0 =? 0) with true. cbv iota. rewrite <- HP, L5. rewrite Permutation_app_comm. reflexivity.
        -- apply (flat_upd _ _ _ _ _ b); [assumption|]. cbn [b_chain map c_mem]. rewrite L6. rewrite Permutation_app_comm. reflexivity.
      * split; [apply winv_upd; assumption|]. rewrite allocated_app, freed_data_app, freed_buckets_app, L7. cbn [app allocated freed_data freed_buckets].
        rewrite !app_nil_r. change (-1 =? 0) with false. cbv iota. unfold stored_data, stored_buckets. cbn [t_buckets]. split.
        -- apply (Permutation_trans (l' := flat_map bucket_data (t_buckets t) ++ [])); [rewrite app_nil_r; reflexivity|].
           apply (flat_upd _ _ _ _ _ b); [assumption|]. rewrite app_nil_r. assumption.
        -- apply (Permutation_trans (l' := flat_map (fun b => map c_mem (b_chain b)) (t_buckets t) ++ [])); [rewrite app_nil_r; reflexivity|].
           apply (flat_upd _ _ _ _ _ b); [assumption|]. rewrite app_nil_r. assumption.
  - unfold ctRemove in H. destruct (slot (t_buckets t) k) as [i| | |]; try discriminate. cbn [obind] in H.
    destruct (aget (t_buckets t) i) as [b| | |] eqn:Eb; try discriminate. apply aget_ok in Eb. cbn [obind] in H.
    destruct (lookupBucket b now) as [[b1 ev1] n] eqn:HL.
    destruct (lookupBucket_spec _ _ _ _ _ HL (W _ _ Eb)) as [L1 [L2 [L3 [L4 [L5 [L6 L7]]]]]].
    destruct (key_eqb k (c_key (b_main b1))) eqn:Ek.
    + apply key_eqb_true in Ek. cbn [obind] in H. injection H as <- <- <-.
      destruct (remove_main_spec b1 k L1 (eq_sym Ek)) as [W' [_ HD]].
      split; [apply winv_upd; assumption|].
      rewrite allocated_app, freed_data_app, freed_buckets_app, L7.
      assert (E1 : allocated (if c_data (b_main b1) =? 0 then [] else [FreeData (c_data (b_main b1))]) = []) by (destruct (c_data (b_main b1) =? 0); reflexivity).
      assert (E2 : freed_buckets (if c_data (b_main b1) =? 0 then [] else [FreeData (c_data (b_main b1))]) = []) by (destruct (c_data (b_main b1) =? 0); reflexivity).
      assert (E3 : freed_data (if c_data (b_main b1) =? 0 then [] else [FreeData (c_data (b_main b1))]) = (if c_data (b_main b1) =? 0 then [] else [c_data (b_main b1)])) by (destruct (c_data (b_main b1) =? 0); reflexivity).
      rewrite E1, E2, E3. cbn [app]. unfold stored_data, stored_buckets. cbn [t_buckets]. split.
      * apply (flat_upd _ _ _ _ _ b); [assumption|]. rewrite app_nil_r, L5, HD.
        rewrite (Permutation_app_comm _ (bucket_data _)), <- app_assoc. apply Permutation_app_head. apply Permutation_app_comm.
      * apply (flat_upd _ _ _ _ _ b); [assumption|]. cbn [b_chain]. rewrite !app_nil_r. assumption.
    + apply key_eqb_false in Ek. destruct (remove_chain (b_chain b1) k) as [l' ev'] eqn:Er. cbn [obind] in H. injection H as <- <- <-.
      destruct (remove_other_spec b1 k l' ev' L1 ltac:(congruence) Er) as [W' [_ [P1 [P2 P3]]]].
      split; [apply winv_upd; assumption|]. rewrite allocated_app, freed_data_app, freed_buckets_app, L7, P3. cbn [app].
      unfold stored_data, stored_buckets. cbn [t_buckets]. split.
      * apply (flat_upd _ _ _ _ _ b); [assumption|]. rewrite app_nil_r, L5, P1. rewrite <- app_assoc. apply Permutation_app_head. apply Permutation_app_comm.
      * apply (flat_upd _ _ _ _ _ b); [assumption|]. cbn [b_chain]. rewrite app_nil_r, L6, P2. rewrite <- app_assoc. apply Permutation_app_head. apply Permutation_app_comm.
  - unfold ctStats in H. destruct (gc_all (t_buckets t) now) as [[[l' ev'] n] a] eqn:E. injection H as <- <- <-.
    destruct (gc_all_spec _ _ _ _ _ _ E) as [G1 [G2 [G3 [G4 [G5 [G6 [G7 G8]]]]]]].
    { intros b Hb. apply In_znth in Hb. destruct Hb as [i Hi]. exact (W _ _ Hi). }
    split; [|unfold stored_data, stored_buckets; cbn [t_buckets]; rewrite G6, !app_nil_r; auto].
    intros i b Hi. cbn [t_buckets] in Hi. destruct (G2 i b Hi) as [b0 [_ [HW _]]]. assumption.
Qed.

Lemma run_conserves : forall ops t t' vs ev, winv t -> crun t ops = Ok (t', vs, ev) ->
  winv t' /\
  Permutation (stored_data t ++ inserted ops vs) (stored_data t' ++ freed_data ev) /\
  Permutation (stored_buckets t ++ allocated ev) (stored_buckets t' ++ freed_buckets ev).
Proof.
  induction ops as [|o ops IH]; intros t t' vs ev W H; cbn [crun] in H.
  - injection H as <- <- <-. cbn. auto.
  - destruct (cstep t o) as [[[t1 v] ev1]| | |] eqn:E; try discriminate. cbn [obind] in H.
    destruct (crun t1 ops) as [[[t2 vs2] ev2]| | |] eqn:E2; try discriminate. cbn [obind] in H. injection H as <- <- <-.
    destruct (step_conserves _ _ _ _ _ W E) as [W1 [P1 P2]]. destruct (IH _ _ _ _ W1 E2) as [W2 [Q1 Q2]].
    split; [assumption|]. rewrite freed_data_app, freed_buckets_app, allocated_app.
    assert (Hi : inserted (o :: ops) (v :: vs2) = ins1 o v ++ inserted ops vs2).
    { unfold ins1. destruct o; cbn [inserted app]; try reflexivity. destruct (v =? 0); reflexivity. }
    rewrite Hi. split.
    + rewrite app_assoc, P1. rewrite <- app_assoc. rewrite (Permutation_app_comm (freed_data ev1)). rewrite app_assoc, Q1.
      rewrite <- !app_assoc. apply Permutation_app_head. apply Permutation_app_comm.
    + rewrite app_assoc, P2. rewrite <- app_assoc. rewrite (Permutation_app_comm (freed_buckets ev1)). rewrite app_assoc, Q2.
      rewrite <- !app_assoc. apply Permutation_app_head. apply Permutation_app_comm.
Qed.

Lemma create_winv : forall size, winv (ctCreate size).
Proof.
  intros size i b Hi. apply znth_In in Hi. cbn [ctCreate t_buckets] in Hi. apply repeat_spec in Hi. subst b.
  constructor; cbn; [constructor|auto|intros c []].
Qed.
Lemma create_empty : forall size, stored_data (ctCreate size) = [] /\ stored_buckets (ctCreate size) = [].
Proof.
  intro size. unfold stored_data, stored_buckets, ctCreate. cbn [t_buckets].
  induction (Z.to_nat size) as [|n [I1 I2]]; [split; reflexivity|]. cbn. auto.
Qed.

Lemma data_conserved : forall size ops t vs ev, crun (ctCreate size) ops = Ok (t, vs, ev) ->
  Permutation (inserted ops vs) (stored_data t ++ freed_data ev) /\
  Permutation (allocated ev) (stored_buckets t ++ freed_buckets ev).
Proof.
  intros size ops t vs ev H. destruct (run_conserves _ _ _ _ _ (create_winv size) H) as [_ [P1 P2]].
  destruct (create_empty size) as [E1 E2]. rewrite E1 in P1. rewrite E2 in P2. auto.
Qed.

Lemma freed_once : forall size ops t vs ev, crun (ctCreate size) ops = Ok (t, vs, ev) ->
  NoDup (inserted ops vs) ->
  NoDup (freed_data ev) /\ (forall d, In d (freed_data ev) -> ~ In d (stored_data t)).
Proof.
  intros size ops t vs ev H Hn. destruct (data_conserved _ _ _ _ _ H) as [P _].
  apply (Permutation_NoDup P) in Hn. clear - Hn. revert Hn. generalize (stored_data t), (freed_data ev). intros a b H. split.
  - induction a as [|x a IH]; [assumption|]. cbn in H. apply NoDup_cons_iff in H. tauto.
  - intros d Hb Ha. induction a as [|x a IH]; [destruct Ha|]. cbn in H. apply NoDup_cons_iff in H. destruct H as [H1 H2].
    destruct Ha as [->|Ha]; [|auto]. apply H1. apply in_or_app. auto.
Qed.

(** What a lookup returns is stored. *)
Lemma lookup_stored : forall t now k t' v ev, winv t -> ctLookup t now k = Ok (t', v, ev) -> v <> 0 -> In v (stored_data t').
Proof.
  intros t now k t' v ev W H Hv. unfold ctLookup in H.
  destruct (slot (t_buckets t) k) as [i| | |]; try discriminate. cbn [obind] in H.
  destruct (aget (t_buckets t) i) as [b| | |] eqn:Eb; try discriminate. apply aget_ok in Eb. cbn [obind] in H.
  destruct (lookupBucket b now) as [[b1 ev1] n] eqn:HL.
  destruct (lookupBucket_spec _ _ _ _ _ HL (W _ _ Eb)) as [L1 _].
  destruct (search b1 k now) as [[b' d]|] eqn:HS; injection H as <- <- <-; [|congruence].
  destruct (search_some _ _ _ _ _ HS L1) as [S1 [S2 [S3 [c [Hc [_ [Hd _]]]]]]].
  unfold stored_data. cbn [t_buckets]. apply in_flat_map. exists b'. split.
  - destruct (znth_split _ _ _ _ Eb) as [x [r [_ Hu]]]. rewrite Hu. apply in_elt.
  - rewrite S2, bucket_data_eq, Hd. apply in_map. assumption.
Qed.

(** ** Destroy *)
Definition tbound (T L : Z) (t : ct) : Prop := forall c, in_tab t c -> 0 <= c_ref c <= T /\ 0 <= c_ttl c <= L.

Lemma search_in : forall b k now b' d c', search b k now = Some (b', d) -> wfb b -> In c' (bents b') ->
  In c' (bents b) \/ exists c, In c (bents b) /\ c' = set_ref c now.
Proof.
  intros b k now b' d c' H W Hc. destruct (search_some _ _ _ _ _ H W) as [_ [_ [_ [c [H1 [_ [_ [_ H2]]]]]]]].
  apply H2 in Hc. destruct Hc as [[Hc _]|Hc]; eauto.
Qed.

Lemma upd_tab_in : forall t i b b' s c, znth (t_buckets t) i = Some b ->
  in_tab (mkCt (zupd (t_buckets t) i b') s) c -> in_tab t c \/ In c (bents b').
Proof.
  intros t i b b' s c Hb H. apply (upd_tab t i b b' s c Hb) in H. destruct H as [[j [b1 [_ [Hj Hc]]]]|H]; [|auto].
  left. exists j, b1. auto.
Qed.

Lemma step_tbound : forall T L t o t' v ev, winv t -> tbound T L t -> cstep t o = Ok (t', v, ev) ->
  0 <= op_now o <= T -> (forall now k ttl d al, o = OInsert now k ttl d al -> 0 <= ttl <= L) -> tbound T L t'.
Proof.
  intros T L t o t' v ev W B H Hn Ht.
  assert (Hgc : forall i b now b1 ev1 n, znth (t_buckets t) i = Some b -> lookupBucket b now = (b1, ev1, n) ->
    forall c, In c (bents b1) -> 0 <= c_ref c <= T /\ 0 <= c_ttl c <= L).
  { intros i b now b1 ev1 n Hb HL c Hc. destruct (lookupBucket_spec _ _ _ _ _ HL (W _ _ Hb)) as [_ [_ [L3 _]]].
    apply B. exists i, b. split; [assumption|]. rewrite L3 in Hc. apply filter_In in Hc. tauto. }
  destruct o as [now k|now k ttl d al|now k|now]; cbn [cstep op_now] in *.
  - unfold ctLookup in H. destruct (slot (t_buckets t) k) as [i| | |]; try discriminate. cbn [obind] in H.
    destruct (aget (t_buckets t) i) as [b| | |] eqn:Eb; try discriminate. apply aget_ok in Eb. cbn [obind] in H.
    destruct (lookupBucket b now) as [[b1 ev1] n] eqn:HL. pose proof (Hgc _ _ _ _ _ _ Eb HL) as Hb1.
    destruct (lookupBucket_spec _ _ _ _ _ HL (W _ _ Eb)) as [L1 _].
    destruct (search b1 k now) as [[b' d]|] eqn:HS; injection H as <- <- <-; intros c Hc.
    + apply (upd_tab_in _ _ b) in Hc; [|assumption]. destruct Hc as [Hc|Hc]; [auto|].
      destruct (search_in _ _ _ _ _ _ HS L1 Hc) as [Hc'|[c1 [Hc1 ->]]]; [auto|]. specialize (Hb1 _ Hc1). cbn. lia.
    + apply (upd_tab_in _ _ b) in Hc; [|assumption]. destruct Hc as [Hc|Hc]; auto.
  - specialize (Ht now k ttl d al eq_refl).
    unfold ctInsertWithTTL in H. destruct (d =? 0) eqn:Ed; [injection H as <- <- <-; assumption|].
    destruct (slot (t_buckets t) k) as [i| | |]; try discriminate. cbn [obind] in H.
    destruct (aget (t_buckets t) i) as [b| | |] eqn:Eb; try discriminate. apply aget_ok in Eb. cbn [obind] in H.
    destruct (lookupBucket b now) as [[b1 ev1] n] eqn:HL. pose proof (Hgc _ _ _ _ _ _ Eb HL) as Hb1.
    destruct (lookupBucket_spec _ _ _ _ _ HL (W _ _ Eb)) as [L1 _].
    destruct (search b1 k now) as [[b' d']|] eqn:HS; [injection H as <- <- <-; intros c Hc|].
    + apply (upd_tab_in _ _ b) in Hc; [|assumption]. destruct Hc as [Hc|Hc]; [auto|].
      destruct (search_in _ _ _ _ _ _ HS L1 Hc) as [Hc'|[c1 [Hc1 ->]]]; [auto|]. specialize (Hb1 _ Hc1). cbn. lia.
    + pose proof (search_none _ _ _ HS) as Hno.
      destruct (c_data (b_main b1) =? 0) eqn:Em; [|destruct al as [mem|]]; injection H as <- <- <-; intros c Hc;
        (apply (upd_tab_in _ _ b) in Hc; [|assumption]); (destruct Hc as [Hc|Hc]; [auto|]).
      * destruct (insert_main_spec b1 k now ttl d (c_mem (b_main b1)) L1 ltac:(lia) ltac:(lia) Hno) as [_ HB].
        rewrite HB in Hc. destruct Hc as [<-|Hc]; [cbn; lia|auto].
      * destruct (insert_chain_spec b1 k now ttl d mem L1 ltac:(lia) ltac:(lia) Hno) as [_ [HB _]].
        apply HB in Hc. destruct Hc as [->|Hc]; [cbn; lia|auto].
      * auto.
  - unfold ctRemove in H. destruct (slot (t_buckets t) k) as [i| | |]; try discriminate. cbn [obind] in H.
    destruct (aget (t_buckets t) i) as [b| | |] eqn:Eb; try discriminate. apply aget_ok in Eb. cbn [obind] in H.
    destruct (lookupBucket b now) as [[b1 ev1] n] eqn:HL. pose proof (Hgc _ _ _ _ _ _ Eb HL) as Hb1.
    destruct (lookupBucket_spec _ _ _ _ _ HL (W _ _ Eb)) as [L1 _].
    destruct (key_eqb k (c_key (b_main b1))) eqn:Ek.
    + apply key_eqb_true in Ek. cbn [obind] in H. injection H as <- <- <-.
      destruct (remove_main_spec b1 k L1 (eq_sym Ek)) as [_ [HB _]]. intros c Hc.
      apply (upd_tab_in _ _ b) in Hc; [|assumption]. destruct Hc as [Hc|Hc]; [auto|]. apply HB in Hc. apply Hb1. tauto.
    + apply key_eqb_false in Ek. destruct (remove_chain (b_chain b1) k) as [l' ev'] eqn:Er. cbn [obind] in H. injection H as <- <- <-.
      destruct (remove_other_spec b1 k l' ev' L1 ltac:(congruence) Er) as [_ [HB _]]. intros c Hc.
      apply (upd_tab_in _ _ b) in Hc; [|assumption]. destruct Hc as [Hc|Hc]; [auto|]. apply HB in Hc. apply Hb1. tauto.
  - unfold ctStats in H. destruct (gc_all (t_buckets t) now) as [[[l' ev'] n] a] eqn:E. injection H as <- <- <-.
    destruct (gc_all_spec _ _ _ _ _ _ E) as [_ [_ [_ [_ [_ [_ [G7 _]]]]]]].
    { intros b Hb. apply In_znth in Hb. destruct Hb as [i Hi]. exact (W _ _ Hi). }
    intros c Hc. apply in_tab_flat in Hc. cbn [t_buckets] in Hc. rewrite G7 in Hc. apply filter_In in Hc. apply B. apply in_tab_flat. tauto.
Qed.

Lemma run_tbound : forall T L ops t t' vs ev, winv t -> tbound T L t -> crun t ops = Ok (t', vs, ev) ->
  (forall o, In o ops -> 0 <= op_now o <= T) ->
  (forall now k ttl d al, In (OInsert now k ttl d al) ops -> 0 <= ttl <= L) -> tbound T L t'.
Proof.
  intros T L. induction ops as [|o ops IH]; intros t t' vs ev W B H Hn Ht; cbn [crun] in H.
  - injection H as <- <- <-. assumption.
  - destruct (cstep t o) as [[[t1 v] ev1]| | |] eqn:E; try discriminate. cbn [obind] in H.
    destruct (crun t1 ops) as [[[t2 vs2] ev2]| | |] eqn:E2; try discriminate. cbn [obind] in H. injection H as <- <- <-.
    destruct (step_conserves _ _ _ _ _ W E) as [W1 _].
    apply (IH t1 t2 vs2 ev2 W1); [|assumption| |].
    + apply (step_tbound T L t o t1 v ev1 W B E); [apply Hn; left; reflexivity|]. intros now k ttl d al ->. apply (Ht now k ttl d al). left. reflexivity.
    + intros o' Ho'. apply Hn. right. assumption.
    + intros now k ttl d al Hi. apply (Ht now k ttl d al). right. assumption.
Qed.

Lemma destroy_frees : forall t, winv t -> (forall c, in_tab t c -> 0 <= c_ref c /\ 0 <= c_ttl c /\ c_ref c + c_ttl c < UINT64_MAX) ->
  Permutation (stored_data t) (freed_data (ctDestroy t)) /\
  Permutation (stored_buckets t) (freed_buckets (ctDestroy t)).
Proof.
  intros t W B. unfold ctDestroy. destruct (gc_all (t_buckets t) UINT64_MAX) as [[[l' ev] n] a] eqn:E.
  destruct (gc_all_spec _ _ _ _ _ _ E) as [G1 [G2 [G3 [G4 [G5 [G6 [G7 G8]]]]]]].
  { intros b Hb. apply In_znth in Hb. destruct Hb as [i Hi]. exact (W _ _ Hi). }
  assert (Hnil : flat_map bents l' = []).
  { rewrite G7. destruct (filter (fresh UINT64_MAX) (flat_map bents (t_buckets t))) as [|c r] eqn:F; [reflexivity|exfalso].
    assert (Hc : In c (filter (fresh UINT64_MAX) (flat_map bents (t_buckets t)))) by (rewrite F; left; reflexivity).
    apply filter_In in Hc. destruct Hc as [Hc Hf]. apply in_tab_flat in Hc. specialize (B c Hc).
    unfold fresh, stale, u64 in Hf. rewrite Z.mod_small in Hf by (unfold UINT64_MAX, two64 in *; lia).
    destruct (c_ttl c <? UINT64_MAX - c_ref c) eqn:E1; [discriminate|lia]. }
  assert (Hd : flat_map bucket_data l' = [] /\ flat_map (fun b => map c_mem (b_chain b)) l' = []).
  { clear - Hnil G8. induction l' as [|b l' IH]; [auto|]. cbn [flat_map] in Hnil. apply app_eq_nil in Hnil. destruct Hnil as [H1 H2].
    destruct IH as [I1 I2]; auto; [intros; apply G8; right; assumption|].
    cbn [flat_map]. rewrite I1, I2, !app_nil_r. split; [rewrite bucket_data_eq, H1; reflexivity|].
    pose proof (filter_occ_chain b (G8 b (or_introl eq_refl))) as F. destruct b as [m l]. rewrite bents_split in H1.
    apply app_eq_nil in H1. cbn [b_chain] in *. destruct H1 as [_ H1]. rewrite F in H1. rewrite H1. reflexivity. }
  destruct Hd as [D1 D2]. rewrite D1 in G4. rewrite D2 in G5. auto.
Qed.

Lemma all_freed_in_the_end : forall size ops t vs ev T L, crun (ctCreate size) ops = Ok (t, vs, ev) ->
  (forall o, In o ops -> 0 <= op_now o <= T) ->
  (forall now k ttl d al, In (OInsert now k ttl d al) ops -> 0 <= ttl <= L) -> T + L < UINT64_MAX ->
  Permutation (inserted ops vs) (freed_data (ev ++ ctDestroy t)) /\
  Permutation (allocated ev) (freed_buckets (ev ++ ctDestroy t)).
Proof.
  intros size ops t vs ev T L H Hn Ht HTL.
  destruct (data_conserved _ _ _ _ _ H) as [P1 P2].
  destruct (run_conserves _ _ _ _ _ (create_winv size) H) as [W _].
  assert (B : tbound T L t).
  { apply (run_tbound T L ops _ _ _ _ (create_winv size)) with (2 := H); [|assumption|assumption]. intros c [i [b [Hb Hc]]]. apply znth_In in Hb.
    cbn [ctCreate t_buckets] in Hb. apply repeat_spec in Hb. subst b. destruct Hc. }
  destruct (destroy_frees t W) as [D1 D2].
  { intros c Hc. specialize (B c Hc). lia. }
  rewrite freed_data_app, freed_buckets_app. rewrite P1, P2, D1, D2. split; apply Permutation_app_comm.
Qed.

(** ** C21: insertion fails only if the allocator refuses *)
Lemma insert_fails : forall t now k ttl d al t' v ev, winv t -> ctInsertWithTTL t now k ttl d al = Ok (t', v, ev) -> d <> 0 ->
  (v = -1 <-> In (AllocBucket None) ev) /\
  (v = -1 -> al = None /\ exists b, znth (t_buckets t') (djb2 k mod zlen (t_buckets t)) = Some b /\
                                    c_data (b_main b) <> 0 /\ c_key (b_main b) <> k) /\
  (v = -1 \/ v = 0 \/ v = 1).
Proof.
  intros t now k ttl d al t' v ev W H Hd. unfold ctInsertWithTTL in H. destruct (d =? 0) eqn:Ed; [lia|].
  unfold slot in H. destruct (zlen (t_buckets t) =? 0) eqn:Ez; [discriminate|]. cbn [obind] in H.
  set (i := djb2 k mod zlen (t_buckets t)) in *.
  destruct (aget (t_buckets t) i) as [b| | |] eqn:Eb; try discriminate. apply aget_ok in Eb. cbn [obind] in H.
  destruct (lookupBucket b now) as [[b1 ev1] n] eqn:HL.
  destruct (lookupBucket_spec _ _ _ _ _ HL (W _ _ Eb)) as [L1 [L2 [L3 [L4 [L5 [L6 L7]]]]]].
  assert (Hev : ~ In (AllocBucket None) ev1).
  { clear - HL. unfold lookupBucket in HL. destruct (gc_main (b_main b) now) as [[m e1] n1] eqn:E1.
    assert (A1 : forall m m' e n, gc_main m now = (m', e, n) -> ~ In (AllocBucket None) e).
    { intros x x' e k E. unfold gc_main in E. destruct (negb (c_data x =? 0) && stale x now); injection E as <- <- <-; cbn; intuition; discriminate. }
    assert (A2 : forall l l' e n, gc_chain l now = (l', e, n) -> ~ In (AllocBucket None) e).
    { induction l as [|x l IH]; intros l' e k E; cbn in E; [injection E as <- <- <-; auto|].
      destruct (gc_chain l now) as [[l2 e2] n2]. specialize (IH _ _ _ eq_refl).
      destruct (stale x now); injection E as <- <- <-; [|assumption].
      intro Hi. apply in_app_or in Hi. destruct Hi as [Hi|[Hi|Hi]]; [|discriminate|contradiction].
      destruct (c_data x =? 0); [destruct Hi|destruct Hi as [Hi|[]]; discriminate]. }
    destruct (b_chain b) as [|c l]; [injection HL as <- <- <-; eapply A1; eauto|].
    unfold bucketGC in HL. cbn [b_main b_chain] in HL.
    destruct (gc_main m now) as [[m3 e3] n3] eqn:E3. destruct (gc_chain (c :: l) now) as [[l4 e4] n4] eqn:E4.
    injection HL as <- <- <-. intro Hi. apply in_app_or in Hi. destruct Hi as [Hi|Hi]; [exact (A1 _ _ _ _ E1 Hi)|].
    apply in_app_or in Hi. destruct Hi as [Hi|Hi]; [exact (A1 _ _ _ _ E3 Hi)|exact (A2 _ _ _ _ E4 Hi)]. }
  destruct (search b1 k now) as [[b' d']|] eqn:HS.
  - injection H as <- <- <-. split; [split; [lia|intro; contradiction]|]. split; [lia|auto].
  - pose proof (search_none _ _ _ HS) as Hno. destruct (c_data (b_main b1) =? 0) eqn:Em.
    + injection H as <- <- <-. split; [split; [lia|intro; contradiction]|]. split; [lia|auto].
    + destruct al as [mem|]; injection H as <- <- <-.
      * split; [split; [lia|]|split; [lia|auto]]. intro Hi. apply in_app_or in Hi. destruct Hi as [Hi|[Hi|[]]]; [contradiction|discriminate].
      * split; [split; [intros _; apply in_or_app; right; left; reflexivity|reflexivity]|]. split; [|auto].
        intros _. split; [reflexivity|]. exists b1. cbn [t_buckets].
        split; [apply znth_zupd_eq; eapply znth_some_range; eauto|]. split; [lia|].
        apply Hno. unfold bents. cbn [filter]. unfold occ at 1. rewrite Em. left. reflexivity.
Qed.

Lemma capacity_gen : forall l, (forall b, In b l -> wfb b) ->
  zlen (flat_map bucket_data l) <= zlen l + zlen (flat_map (fun b => map c_mem (b_chain b)) l).
Proof.
  induction l as [|b l IH]; intro W; [cbn; lia|]. cbn [flat_map]. unfold zlen in *. rewrite !app_length. cbn [length].
  specialize (IH (fun x Hx => W x (or_intror Hx))). rewrite map_length.
  assert (Z.of_nat (length (bucket_data b)) <= 1 + Z.of_nat (length (b_chain b))); [|lia].
  unfold bucket_data. cbn [map filter].
  assert (Hf : forall (x : list Z), (length (filter (fun d => negb (Z.eqb d 0)) x) <= length x)%nat).
  { induction x as [|y x IHx]; cbn; [lia|]. destruct (negb (y =? 0)); cbn; lia. }
  pose proof (Hf (map c_data (b_chain b))) as H. rewrite map_length in H. destruct (negb (c_data (b_main b) =? 0)); cbn [length]; lia.
Qed.

Lemma step_len : forall t o t' v ev, cstep t o = Ok (t', v, ev) -> zlen (t_buckets t') = zlen (t_buckets t).
Proof.
  intros t o t' v ev H. destruct o as [now k|now k ttl d al|now k|now]; cbn [cstep] in H.
  - unfold ctLookup in H. destruct (slot (t_buckets t) k) as [i| | |]; try discriminate. cbn [obind] in H.
    destruct (aget (t_buckets t) i) as [b| | |] eqn:Eb; try discriminate. cbn [obind] in H.
    destruct (lookupBucket b now) as [[b1 ev1] n]. destruct (search b1 k now) as [[b' d]|]; injection H as <- <- <-; apply zlen_zupd.
  - unfold ctInsertWithTTL in H. destruct (d =? 0); [injection H as <- <- <-; reflexivity|].
    destruct (slot (t_buckets t) k) as [i| | |]; try discriminate. cbn [obind] in H.
    destruct (aget (t_buckets t) i) as [b| | |] eqn:Eb; try discriminate. cbn [obind] in H.
    destruct (lookupBucket b now) as [[b1 ev1] n]. destruct (search b1 k now) as [[b' d']|]; [injection H as <- <- <-; apply zlen_zupd|].
    destruct (c_data (b_main b1) =? 0); [injection H as <- <- <-; apply zlen_zupd|].
    destruct al; injection H as <- <- <-; apply zlen_zupd.
  - unfold ctRemove in H. destruct (slot (t_buckets t) k) as [i| | |]; try discriminate. cbn [obind] in H.
    destruct (aget (t_buckets t) i) as [b| | |] eqn:Eb; try discriminate. cbn [obind] in H.
    destruct (lookupBucket b now) as [[b1 ev1] n]. destruct (key_eqb k (c_key (b_main b1))).
    + cbn [obind] in H. injection H as <- <- <-. apply zlen_zupd.
    + destruct (remove_chain (b_chain b1) k). cbn [obind] in H. injection H as <- <- <-. apply zlen_zupd.
  - unfold ctStats in H. destruct (gc_all (t_buckets t) now) as [[[l' ev'] n] a] eqn:E. injection H as <- <- <-. cbn [t_buckets].
    revert l' ev' n a E. induction (t_buckets t) as [|b l IH]; intros l' ev' n a E; cbn in E.
    + injection E as <- <- <- <-. reflexivity.
    + destruct (bucketGC b now) as [[[b' e1] n1] a1]. destruct (gc_all l now) as [[[r' e2] n2] a2]. injection E as <- <- <- <-.
      specialize (IH _ _ _ _ eq_refl). unfold zlen in *. cbn [length]. lia.
Qed.
Lemma run_len : forall ops t t' vs ev, crun t ops = Ok (t', vs, ev) -> zlen (t_buckets t') = zlen (t_buckets t).
Proof.
  induction ops as [|o ops IH]; intros t t' vs ev H; cbn [crun] in H; [injection H as <- <- <-; reflexivity|].
  destruct (cstep t o) as [[[t1 v] ev1]| | |] eqn:E; try discriminate. cbn [obind] in H.
  destruct (crun t1 ops) as [[[t2 vs2] ev2]| | |] eqn:E2; try discriminate. cbn [obind] in H. injection H as <- <- <-.
  rewrite (IH _ _ _ _ E2). eapply step_len; eauto.
Qed.

Lemma capacity : forall size ops t vs ev, 0 <= size -> crun (ctCreate size) ops = Ok (t, vs, ev) ->
  zlen (stored_data t) <= size + (zlen (allocated ev) - zlen (freed_buckets ev)) /\
  zlen (allocated ev) - zlen (freed_buckets ev) = zlen (stored_buckets t).
Proof.
  intros size ops t vs ev Hs H. destruct (data_conserved _ _ _ _ _ H) as [_ P].
  destruct (run_conserves _ _ _ _ _ (create_winv size) H) as [W _].
  assert (E : zlen (allocated ev) = zlen (stored_buckets t) + zlen (freed_buckets ev)).
  { apply Permutation_length in P. rewrite app_length in P. unfold zlen. lia. }
  split; [|lia]. rewrite E. replace (zlen (stored_buckets t) + zlen (freed_buckets ev) - zlen (freed_buckets ev)) with (zlen (stored_buckets t)) by lia.
  assert (Hl : zlen (t_buckets t) = size).
  { rewrite (run_len _ _ _ _ _ H). cbn [ctCreate t_buckets]. rewrite zlen_repeat. lia. }
  rewrite <- Hl. apply capacity_gen. intros b Hb. apply In_znth in Hb. destruct Hb as [i Hi]. exact (W _ _ Hi).
Qed.

(** ** C22 *)
Lemma early_clock_evicts : forall size k ttl d al t0 r now, 0 < size -> d <> 0 ->
  0 <= t0 <= r -> r < two64 -> r - t0 <= ttl -> 0 <= now < r -> 0 <= ttl -> ttl < two64 - (r - now) ->
  exists t ev, crun (ctCreate size) [OInsert t0 k ttl d al; OLookup r k; OLookup now k] = Ok (t, [0; d; 0], ev) /\
    freed_data ev = [d].
Proof.
  intros size k ttl d al t0 r now Hs Hd Ht0 Hr Hlive Hnow Httl Hbig.
  set (i := djb2 k mod size). assert (Hi : 0 <= i < size) by (apply Z.mod_pos_bound; assumption).
  set (b0 := mkBucket (mkCent (repeat 0 40) 0 0 0 0) []).
  assert (HL : zlen (t_buckets (ctCreate size)) = size) by (cbn [ctCreate t_buckets]; rewrite zlen_repeat; lia).
  assert (Hb0 : aget (t_buckets (ctCreate size)) i = Ok b0).
  { apply aget_ok. cbn [ctCreate t_buckets]. apply znth_repeat. lia. }
  assert (Hslot : forall t, zlen t = size -> slot t k = Ok i) by (intros t E; unfold slot; rewrite E; destruct (size =? 0) eqn:E0; [lia|reflexivity]).
  assert (Hget : forall (t : list bucket) b, zlen t = size -> aget (zupd t i b) i = Ok b).
  { intros t b E. apply aget_ok. apply znth_zupd_eq. lia. }
  assert (Hk : key_eqb k k = true) by (apply key_eqb_true; reflexivity).
  assert (Hd0 : (d =? 0) = false) by lia.
  set (tb := t_buckets (ctCreate size)) in *.
  set (B1 := mkBucket (mkCent k d t0 ttl 0) []). set (B2 := mkBucket (mkCent k d r ttl 0) []).
  set (B3 := mkBucket (mkCent k 0 r ttl 0) []).
  assert (Hst : stale (mkCent k d t0 ttl 0) r = false).
  { unfold stale, u64. cbn [c_ttl c_ref]. rewrite Z.mod_small by lia. lia. }
  assert (Hst2 : stale (mkCent k d r ttl 0) now = true).
  { unfold stale, u64. cbn [c_ttl c_ref].
    assert (E : (now - r) mod two64 = now - r + two64).
    { symmetry. apply Z.mod_unique_pos with (q := -1); unfold two64 in *; lia. }
    rewrite E. lia. }
  assert (HL1 : forall b, zlen (zupd tb i b) = size) by (intro b; rewrite zlen_zupd; assumption).
  assert (E1 : exists s, ctInsertWithTTL (ctCreate size) t0 k ttl d al = Ok (mkCt (zupd tb i B1) s, 0, [])).
  { unfold ctInsertWithTTL. rewrite Hd0. fold tb. rewrite (Hslot _ HL). cbn [obind]. rewrite Hb0. cbn [obind].
    eexists. reflexivity. }
  assert (E2 : forall s, exists s', ctLookup (mkCt (zupd tb i B1) s) r k = Ok (mkCt (zupd (zupd tb i B1) i B2) s', d, [])).
  { intro s. unfold ctLookup. cbn [t_buckets]. rewrite (Hslot _ (HL1 _)). cbn [obind]. rewrite (Hget _ _ HL). cbn [obind].
    assert (G : lookupBucket B1 r = (B1, [], 0)).
    { unfold lookupBucket, B1, gc_main. cbn [b_main b_chain c_data]. rewrite Hd0, Hst. reflexivity. }
    rewrite G.
    assert (S : search B1 k r = Some (B2, d)).
    { unfold search, B1. cbn [b_main b_chain touch]. unfold hit. cbn [c_data c_key]. rewrite Hd0, Hk. reflexivity. }
    rewrite S. eexists. reflexivity. }
  assert (E3 : forall s, exists s', ctLookup (mkCt (zupd (zupd tb i B1) i B2) s) now k = Ok (mkCt (zupd (zupd (zupd tb i B1) i B2) i B3) s', 0, [FreeData d])).
  { intro s. unfold ctLookup. cbn [t_buckets]. rewrite (Hslot (zupd (zupd tb i B1) i B2)) by (rewrite zlen_zupd; apply HL1). cbn [obind].
    rewrite (Hget (zupd tb i B1)) by apply HL1. cbn [obind].
    assert (G : lookupBucket B2 now = (B3, [FreeData d], 1)).
    { unfold lookupBucket, B2, gc_main. cbn [b_main b_chain c_data]. rewrite Hd0, Hst2. reflexivity. }
    rewrite G. eexists. reflexivity. }
  destruct E1 as [s1 E1]. destruct (E2 s1) as [s2 E2']. destruct (E3 s2) as [s3 E3'].
  cbn [crun cstep]. rewrite E1. cbn [obind]. rewrite E2'. cbn [obind]. rewrite E3'. cbn [obind].
  do 2 eexists. split; reflexivity.
Qed.

Lemma entry_in_tab : forall t c, entry t c <-> in_tab t c.
Proof.
  intros t c. unfold entry, in_tab, bents. split.
  - intros [i [b [Hb [Hc Hd]]]]. exists i, b. split; [assumption|]. apply filter_In.
    split; [cbn; destruct Hc; auto|]. unfold occ. destruct (c_data c =? 0) eqn:E; [lia|reflexivity].
  - intros [i [b [Hb Hc]]]. apply filter_In in Hc. destruct Hc as [Hc Ho]. exists i, b. split; [assumption|].
    split; [destruct Hc; auto|]. unfold occ in Ho. destruct (c_data c =? 0) eqn:E; [discriminate|lia].
Qed.

Lemma keeps_live : forall t o t' v ev c, winv t -> cstep t o = Ok (t', v, ev) -> entry t c ->
  0 <= c_ref c <= op_now o -> op_now o < two64 -> op_now o - c_ref c <= c_ttl c ->
  (forall now, o <> ORemove now (c_key c)) ->
  exists c', entry t' c' /\ c_key c' = c_key c /\ c_data c' = c_data c /\ c_ttl c' = c_ttl c /\
             (c_ref c' = c_ref c \/ c_ref c' = op_now o).
Proof.
  intros t o t' v ev c W H Hc Hr Hn Hl Hrm. apply entry_in_tab in Hc. pose proof Hc as [i0 [b0 [Hb0 Hc0]]].
  assert (Hfr : fresh (op_now o) c = true) by (apply stale_fresh; auto).
  assert (Kp : forall c', in_tab t' c' -> c' = c \/ c' = set_ref c (op_now o) -> 
     exists c', entry t' c' /\ c_key c' = c_key c /\ c_data c' = c_data c /\ c_ttl c' = c_ttl c /\ (c_ref c' = c_ref c \/ c_ref c' = op_now o)).
  { intros c' Hc' [->| ->]; eexists; (split; [apply entry_in_tab; exact Hc'|]); cbn; auto. }
  assert (Same : forall i b b' s, znth (t_buckets t) i = Some b -> t' = mkCt (zupd (t_buckets t) i b') s ->
     (In c (bents b) -> In c (bents b') \/ In (set_ref c (op_now o)) (bents b')) ->
     exists c', in_tab t' c' /\ (c' = c \/ c' = set_ref c (op_now o))).
  { intros i b b' s Hb -> Hk. destruct (Z.eq_dec i0 i) as [->|Hne].
    - rewrite Hb in Hb0. injection Hb0 as <-. destruct (Hk Hc0) as [Hx|Hx]; [exists c|exists (set_ref c (op_now o))]; (split; [|auto]);
        exists i, b'; cbn [t_buckets]; (split; [apply znth_zupd_eq; eapply znth_some_range; eauto|exact Hx]).
    - exists c. split; [|auto]. exists i0, b0. cbn [t_buckets]. rewrite znth_zupd_neq by congruence. auto. }
  assert (Hsearch : forall b b' k d, wfb b -> search b k (op_now o) = Some (b', d) -> In c (bents b) -> In c (bents b') \/ In (set_ref c (op_now o)) (bents b')).
  { intros b b' k d Wb HS Hin. destruct (search_some _ _ _ _ _ HS Wb) as [_ [_ [_ [x [X1 [X2 [_ [_ X3]]]]]]]].
    destruct (list_eq_dec Z.eq_dec (c_key c) k) as [E|E].
    - right. apply X3. right. f_equal. apply (nodup_key_inj (bents b)); auto; [apply bents_keys_nodup; assumption|congruence].
    - left. apply X3. left. auto. }
  destruct o as [now k|now k ttl d al|now k|now]; cbn [cstep op_now] in *.
  - unfold ctLookup in H. destruct (slot (t_buckets t) k) as [i| | |]; try discriminate. cbn [obind] in H.
    destruct (aget (t_buckets t) i) as [b| | |] eqn:Eb; try discriminate. apply aget_ok in Eb. cbn [obind] in H.
    destruct (lookupBucket b now) as [[b1 ev1] n] eqn:HL.
    destruct (lookupBucket_spec _ _ _ _ _ HL (W _ _ Eb)) as [L1 [L2 [L3 _]]].
    assert (Hin1 : In c (bents b) -> In c (bents b1)) by (intro Hin; rewrite L3; apply filter_In; auto).
    destruct (search b1 k now) as [[b' d]|] eqn:HS; injection H as <- <- <-.
    + destruct (Same i b b' _ Eb eq_refl) as [c' [H1 H2]]; [intro; eapply Hsearch; eauto|]. apply (Kp c'); assumption.
    + destruct (Same i b b1 _ Eb eq_refl) as [c' [H1 H2]]; [auto|]. apply (Kp c'); assumption.
  - unfold ctInsertWithTTL in H. destruct (d =? 0) eqn:Ed; [injection H as <- <- <-; apply (Kp c); auto|].
    destruct (slot (t_buckets t) k) as [i| | |]; try discriminate. cbn [obind] in H.
    destruct (aget (t_buckets t) i) as [b| | |] eqn:Eb; try discriminate. apply aget_ok in Eb. cbn [obind] in H.
    destruct (lookupBucket b now) as [[b1 ev1] n] eqn:HL.
    destruct (lookupBucket_spec _ _ _ _ _ HL (W _ _ Eb)) as [L1 [L2 [L3 _]]].
    assert (Hin1 : In c (bents b) -> In c (bents b1)) by (intro Hin; rewrite L3; apply filter_In; auto).
    destruct (search b1 k now) as [[b' d']|] eqn:HS; [injection H as <- <- <-|].
    + destruct (Same i b b' _ Eb eq_refl) as [c' [H1 H2]]; [intro; eapply Hsearch; eauto|]. apply (Kp c'); assumption.
    + pose proof (search_none _ _ _ HS) as Hno.
      destruct (c_data (b_main b1) =? 0) eqn:Em; [|destruct al as [mem|]]; injection H as <- <- <-.
      * destruct (insert_main_spec b1 k now ttl d (c_mem (b_main b1)) L1 ltac:(lia) ltac:(lia) Hno) as [_ HB].
        edestruct (Same i b) as [c' [H1 H2]]; [assumption|reflexivity| |apply (Kp c'); [exact H1|assumption]].
        intro Hin. left. rewrite HB. right. auto.
      * destruct (insert_chain_spec b1 k now ttl d mem L1 ltac:(lia) ltac:(lia) Hno) as [_ [HB _]].
        edestruct (Same i b) as [c' [H1 H2]]; [assumption|reflexivity| |apply (Kp c'); [exact H1|assumption]].
        intro Hin. left. apply HB. auto.
      * destruct (Same i b b1 _ Eb eq_refl) as [c' [H1 H2]]; [auto|]. apply (Kp c'); assumption.
  - assert (Hk : c_key c <> k) by (intro E; apply (Hrm now); congruence).
    unfold ctRemove in H. destruct (slot (t_buckets t) k) as [i| | |]; try discriminate. cbn [obind] in H.
    destruct (aget (t_buckets t) i) as [b| | |] eqn:Eb; try discriminate. apply aget_ok in Eb. cbn [obind] in H.
    destruct (lookupBucket b now) as [[b1 ev1] n] eqn:HL.
    destruct (lookupBucket_spec _ _ _ _ _ HL (W _ _ Eb)) as [L1 [L2 [L3 _]]].
    assert (Hin1 : In c (bents b) -> In c (bents b1)) by (intro Hin; rewrite L3; apply filter_In; auto).
    destruct (key_eqb k (c_key (b_main b1))) eqn:Ek.
    + apply key_eqb_true in Ek. cbn [obind] in H. injection H as <- <- <-.
      destruct (remove_main_spec b1 k L1 (eq_sym Ek)) as [_ [HB _]].
      edestruct (Same i b) as [c' [H1 H2]]; [assumption|reflexivity| |apply (Kp c'); [exact H1|assumption]].
      intro Hin. left. apply HB. auto.
    + apply key_eqb_false in Ek. destruct (remove_chain (b_chain b1) k) as [l' ev'] eqn:Er. cbn [obind] in H. injection H as <- <- <-.
      destruct (remove_other_spec b1 k l' ev' L1 ltac:(congruence) Er) as [_ [HB _]].
      edestruct (Same i b) as [c' [H1 H2]]; [assumption|reflexivity| |apply (Kp c'); [exact H1|assumption]].
      intro Hin. left. apply HB. auto.
  - unfold ctStats in H. destruct (gc_all (t_buckets t) now) as [[[l' ev'] n] a] eqn:E. injection H as <- <- <-.
    destruct (gc_all_spec _ _ _ _ _ _ E) as [_ [_ [_ [_ [_ [_ [G7 _]]]]]]].
    { intros b Hb. apply In_znth in Hb. destruct Hb as [i Hi]. exact (W _ _ Hi). }
    apply (Kp c); [|auto]. apply in_tab_flat. cbn [t_buckets]. rewrite G7. apply filter_In. split; [apply in_tab_flat; assumption|assumption].
Qed.

Lemma keeps_live_run : forall size ops t vs ev o t' v ev' c, crun (ctCreate size) ops = Ok (t, vs, ev) ->
  cstep t o = Ok (t', v, ev') -> entry t c ->
  0 <= c_ref c <= op_now o -> op_now o < two64 -> op_now o - c_ref c <= c_ttl c ->
  (forall now, o <> ORemove now (c_key c)) ->
  exists c', entry t' c' /\ c_key c' = c_key c /\ c_data c' = c_data c /\ c_ttl c' = c_ttl c /\
             (c_ref c' = c_ref c \/ c_ref c' = op_now o).
Proof.
  intros size ops t vs ev o t' v ev' c H. intros. eapply keeps_live; eauto. apply (run_conserves _ _ _ _ _ (create_winv size) H).
Qed.

(** Corollaries in the form used by the property file. *)
Lemma not_freed_while_found : forall size ops t vs ev now k t' v ev', crun (ctCreate size) ops = Ok (t, vs, ev) ->
  NoDup (inserted ops vs) -> ctLookup t now k = Ok (t', v, ev') -> v <> 0 -> ~ In v (freed_data (ev ++ ev')).
Proof.
  intros size ops t vs ev now k t' v ev' H Hn HL Hv Hi.
  assert (H' : crun (ctCreate size) (ops ++ [OLookup now k]) = Ok (t', vs ++ [v], ev ++ ev') /\ inserted (ops ++ [OLookup now k]) (vs ++ [v]) = inserted ops vs).
  { clear Hn Hv Hi. revert t vs ev H HL. generalize (ctCreate size). induction ops as [|o ops IH]; intros t0 t vs ev H HL; cbn [crun] in H.
    - injection H as <- <- <-. cbn [app crun cstep]. rewrite HL. cbn [obind]. rewrite app_nil_r. auto.
    - destruct (cstep t0 o) as [[[t1 v1] ev1]| | |] eqn:E; try discriminate. cbn [obind] in H.
      destruct (crun t1 ops) as [[[t2 vs2] ev2]| | |] eqn:E2; try discriminate. cbn [obind] in H. injection H as <- <- <-.
      destruct (IH _ _ _ _ E2 HL) as [I1 I2]. cbn [app crun]. rewrite E. cbn [obind]. rewrite I1. cbn [obind]. rewrite app_assoc.
      split; [reflexivity|]. cbn [inserted]. rewrite I2. reflexivity. }
  destruct H' as [H1 H2]. rewrite <- H2 in Hn. destruct (freed_once _ _ _ _ _ H1 Hn) as [_ F]. apply (F v Hi).
  eapply lookup_stored; eauto. apply (run_conserves _ _ _ _ _ (create_winv size) H).
Qed.

Lemma destroy_keeps_eternal : forall size k d al now, 0 < size -> 0 <= now < two64 -> d <> 0 ->
  exists t ev, crun (ctCreate size) [OInsert now k UINT64_MAX d al] = Ok (t, [0], ev) /\ freed_data (ev ++ ctDestroy t) = [].
Proof.
  intros size k d al now Hs Hn Hd.
  destruct (map_with_ttl size [OInsert now k UINT64_MAX d al] Hs) as [t [vs [ev [m [H1 H2]]]]].
  { cbn. lia. }
  { intros n' k' ttl' d' al' [E|[]]. injection E as <- <- <- <- <-. unfold UINT64_MAX, two64. lia. }
  pose proof H1 as H0. cbn [crun] in H1.
  destruct (cstep (ctCreate size) (OInsert now k UINT64_MAX d al)) as [[[t1 v] ev1]| | |] eqn:E; try discriminate.
  cbn [obind] in H1. injection H1 as <- <- <-.
  assert (Hv : v = 0 /\ ev1 = [] ).
  { cbn [cstep] in E. unfold ctInsertWithTTL in E. destruct (d =? 0) eqn:Ed; [lia|].
    destruct (slot (t_buckets (ctCreate size)) k) as [i| | |]; try discriminate. cbn [obind] in E.
    destruct (aget (t_buckets (ctCreate size)) i) as [b| | |] eqn:Eb; try discriminate. apply aget_ok in Eb. cbn [obind] in E.
    apply znth_In in Eb. cbn [ctCreate t_buckets] in Eb. apply repeat_spec in Eb. subst b. cbn in E. injection E as <- <- <-. auto. }
  destruct Hv as [-> ->]. exists t1, ([] ++ []). split; [exact H0|]. cbn [app].
  destruct (run_conserves _ _ _ _ _ (create_winv size) H0) as [W _].
  unfold ctDestroy. destruct (gc_all (t_buckets t1) UINT64_MAX) as [[[l' ev] n] a] eqn:Eg.
  destruct (gc_all_spec _ _ _ _ _ _ Eg) as [G1 [G2 [G3 [G4 [G5 [G6 [G7 G8]]]]]]].
  { intros b Hb. apply In_znth in Hb. destruct Hb as [i Hi]. exact (W _ _ Hi). }
  assert (Hf : flat_map bents l' = flat_map bents (t_buckets t1)).
  { rewrite G7. assert (B : tbound (two64 - 1) UINT64_MAX t1 /\ forall c, in_tab t1 c -> c_ttl c = UINT64_MAX).
    { split.
      - apply (run_tbound (two64 - 1) UINT64_MAX _ _ _ _ _ (create_winv size)) with (2 := H0).
        + intros c [i [b [Hb Hc]]]. apply znth_In in Hb. cbn [ctCreate t_buckets] in Hb. apply repeat_spec in Hb. subst b. destruct Hc.
        + intros o [<-|[]]. cbn [op_now]. unfold two64 in *. lia.
        + intros n' k' ttl' d' al' [E'|[]]. injection E' as <- <- <- <- <-. unfold UINT64_MAX. lia.
      - intros c Hc. cbn [cstep] in E. unfold ctInsertWithTTL in E. destruct (d =? 0) eqn:Ed; [lia|].
        destruct (slot (t_buckets (ctCreate size)) k) as [i| | |]; try discriminate. cbn [obind] in E.
        destruct (aget (t_buckets (ctCreate size)) i) as [b| | |] eqn:Eb; try discriminate. apply aget_ok in Eb. cbn [obind] in E.
        pose proof Eb as Eb'. apply znth_In in Eb. cbn [ctCreate t_buckets] in Eb. apply repeat_spec in Eb. subst b. cbn [lookupBucket b_main b_chain gc_main c_data Z.eqb negb andb search touch hit] in E.
        injection E as <-. apply (upd_tab_in _ _ _ _ _ _ Eb') in Hc. destruct Hc as [[j [b [Hb Hc]]]|Hc].
        + apply znth_In in Hb. cbn [ctCreate t_buckets] in Hb. apply repeat_spec in Hb. subst b. destruct Hc.
        + unfold bents in Hc. cbn [b_main b_chain filter] in Hc. destruct (occ _); [destruct Hc as [<-|[]]; reflexivity|destruct Hc]. }
    destruct B as [B1 B2].
    assert (Hall : forall c, In c (flat_map bents (t_buckets t1)) -> fresh UINT64_MAX c = true).
    { intros c Hc. apply in_tab_flat in Hc. destruct (B1 c Hc) as [B3 _]. specialize (B2 c Hc). unfold fresh, stale, u64. rewrite B2.
      assert (0 <= (UINT64_MAX - c_ref c) mod two64 < two64) by (apply Z.mod_pos_bound; reflexivity).
      destruct (UINT64_MAX <? (UINT64_MAX - c_ref c) mod two64) eqn:El; [unfold UINT64_MAX, two64 in *; lia|reflexivity]. }
    clear - Hall. induction (flat_map bents (t_buckets t1)) as [|c l IH]; [reflexivity|]. cbn. rewrite (Hall c (or_introl eq_refl)). f_equal. apply IH. intros; apply Hall; right; assumption. }
  assert (Hd' : flat_map bucket_data l' = flat_map bucket_data (t_buckets t1)).
  { assert (Hm : forall l, flat_map bucket_data l = map c_data (flat_map bents l)).
    { induction l as [|b l IH]; [reflexivity|]. cbn [flat_map]. rewrite map_app, IH, bucket_data_eq. reflexivity. }
    rewrite !Hm, Hf. reflexivity. }
  rewrite Hd' in G4. apply Permutation_length in G4. rewrite app_length in G4. destruct (freed_data ev); [reflexivity|cbn in G4; lia].
Qed.

Lemma insert_fails_run : forall size ops t vs ev now k ttl d al t' v ev', crun (ctCreate size) ops = Ok (t, vs, ev) ->
  ctInsertWithTTL t now k ttl d al = Ok (t', v, ev') -> d <> 0 ->
  (v = -1 <-> In (AllocBucket None) ev') /\
  (v = -1 -> al = None /\ exists b, znth (t_buckets t') (djb2 k mod zlen (t_buckets t)) = Some b /\
                                    c_data (b_main b) <> 0 /\ c_key (b_main b) <> k) /\
  (v = -1 \/ v = 0 \/ v = 1).
Proof.
  intros size ops t vs ev now k ttl d al t' v ev' H. intros. eapply insert_fails; eauto. apply (run_conserves _ _ _ _ _ (create_winv size) H).
Qed.
