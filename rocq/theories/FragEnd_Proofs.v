(** Proofs about the end of a fragment table. *)
From Coq Require Import Lia Permutation.
From Verif Require Import Base Lists Conntrack_Model Conntrack_Spec Conntrack_Proofs Conntrack2_Proofs ItemPool_Model Frag_Model Frag_Spec Frag_Proofs Frag2_Proofs FragEnd_Model FragEnd_Spec.

(** ** What does not touch the table *)
Lemma lock_ct s o s' : fragDataLock s o = Ok s' -> s_ct s' = s_ct s.
Proof. unfold fragDataLock. destruct (oget _ _); intros H; inversion H. reflexivity. Qed.
Lemma unlock_ct s o s' ob : fragDataUnlock s o = Ok (s', ob) -> s_ct s' = s_ct s /\ stored_tr ob = [] /\ handed_tr ob = [].
Proof. unfold fragDataUnlock. destruct (oget _ _) as [b|]; [|discriminate]. destruct (_ =? 0); intros H; inversion H; subst; auto. Qed.
Lemma callbacks_ct : forall ev s s' ob, callbacks s ev = Ok (s', ob) -> s_ct s' = s_ct s /\ stored_tr ob = [] /\ handed_tr ob = [].
Proof.
  induction ev as [|e ev IH]; intros s s' ob H; cbn [callbacks] in H; [inversion H; auto|].
  assert (X : exists s1 ob1, (match e with FreeData o => fragDataUnlock s o | FreeBucket _ => Ok (add_bk s 1, []) | AllocBucket (Some _) => Ok (add_bk s (-1), []) | AllocBucket None => Ok (s, []) end) = Ok (s1, ob1) /\
    s_ct s1 = s_ct s /\ stored_tr ob1 = [] /\ handed_tr ob1 = []).
  { destruct e as [d|m|[m|]]; cbn [obind] in H; try (eexists _, _; split; [reflexivity|]; auto).
    destruct (fragDataUnlock s d) as [[s1 ob1]| | |] eqn:E; try discriminate. exists s1, ob1. split; [reflexivity|]. eapply unlock_ct; eauto. }
  destruct X as (s1 & ob1 & E & A & B & C). rewrite E in H. cbn [obind] in H. destruct (callbacks s1 ev) as [[s2 ob2]| | |] eqn:E2; try discriminate. cbn [obind] in H.
  inversion H; subst. destruct (IH _ _ _ E2) as (A' & B' & C'). rewrite stored_tr_app, handed_tr_app, B, C, B', C'. split; [congruence|auto].
Qed.
Lemma table_op_ct s o s' v ob : table_op s o = Ok (s', v, ob) -> exists ev, cstep (s_ct s) o = Ok (s_ct s', v, ev).
Proof.
  unfold table_op. destruct (cstep (s_ct s) o) as [[[t v'] ev]| | |]; try discriminate. cbn [obind]. destruct (callbacks (set_ct s t) ev) as [[s1 ob1]| | |] eqn:E; try discriminate.
  cbn [obind]. intros H. inversion H; subst. exists ev. apply callbacks_ct in E. destruct E as (E & _). rewrite E. reflexivity.
Qed.
Lemma lookup_op_ct s now k s' v ob : lookup_op s now k = Ok (s', v, ob) -> exists v' ev, cstep (s_ct s) (OLookup now k) = Ok (s_ct s', v', ev).
Proof.
  unfold lookup_op. destruct (table_op s (OLookup now k)) as [[[s1 o] ob1]| | |] eqn:E; try discriminate. cbn [obind]. apply table_op_ct in E. destruct E as (ev & E).
  destruct (o =? 0); [intros H; inversion H; subst; eauto|]. destruct (fragDataLock s1 o) as [s2| | |] eqn:E2; try discriminate. cbn [obind]. intros H. inversion H; subst.
  apply lock_ct in E2. rewrite E2. eauto.
Qed.

(** ** The times in the table *)
Definition pc_call (p : pc) : option call :=
  match p with
  | Idle => None
  | PAlloc c | PIns c _ | PInc c _ | PLost c _ | PAgain c | PFull c _ | PBody c _ | PTaken c _ _ | PGive c _ | PCheck c _ | PVal c _ | PItem c _
  | PPoison c _ | PPoisoned c _ _ | PDrop c _ | PPut c _ _ | PBack c _ _ _ _ | PUnl c _ _ _ => Some c
  end.
Definition in_time (T : Z) (p : pc) : Prop := forall c, pc_call p = Some c -> 0 <= c_now c <= T.
Definition Timed (T : Z) (g : conf) (w : world) : Prop := tbound T (g_ttl g) (s_ct (w_sys w)) /\ Forall (in_time T) (w_pcs w).

Lemma ttl_pos g : 0 <= g_ttl g.
Proof. unfold g_ttl, u32. apply Z.mod_pos_bound. reflexivity. Qed.

Lemma tstep_time T g s p a s' p' ob : winv (s_ct s) -> tbound T (g_ttl g) (s_ct s) -> in_time T p -> 0 <= c_now (a_call a) <= T ->
  tstep g s p a = Ok (s', p', ob) -> tbound T (g_ttl g) (s_ct s') /\ in_time T p'.
Proof.
  intros W B P A H.
  assert (LK : forall c v, 0 <= c_now c <= T -> forall s1 ob1, lookup_op s (c_now c) (c_k c) = Ok (s1, v, ob1) -> tbound T (g_ttl g) (s_ct s1)).
  { intros c v C s1 ob1 E. apply lookup_op_ct in E. destruct E as (v' & ev & E). eapply step_tbound; [exact W|exact B|exact E|exact C|discriminate]. }
  assert (UN : forall o s1 ob1, fragDataUnlock s o = Ok (s1, ob1) -> tbound T (g_ttl g) (s_ct s1)).
  { intros o s1 ob1 E. apply unlock_ct in E. destruct E as (E & _). rewrite E. exact B. }
  assert (PP : forall c, pc_call p = Some c -> 0 <= c_now c <= T) by exact P.
  destruct p; cbn [tstep pc_call] in *; try specialize (PP _ eq_refl).
  - destruct (lookup_op s (c_now (a_call a)) (c_k (a_call a))) as [[[s1 o] ob1]| | |] eqn:E; try discriminate. cbn [obind] in H. pose proof (LK _ _ A _ _ E) as B1.
    destruct (o =? 0); [destruct (a_call a) eqn:EC|]; inversion H; subst; (split; [exact B1|]); intros c X; cbn in X; try discriminate; injection X as <-; exact A.
  - destruct (s_fdfree s <=? 0); inversion H; subst; (split; [exact B|]); intros c0 X; cbn in X; try discriminate; injection X as <-; exact PP.
  - unfold insert_op in H. destruct (ctInsertWithTTL _ _ _ _ _ _) as [[[t0 v0] ev0]| | |]; try discriminate. cbn [obind] in H.
    destruct (table_op _ _) as [[[s1 v] ob1]| | |] eqn:E; try discriminate. cbn [obind] in H. inversion H; subst. apply table_op_ct in E. destruct E as (ev & E). split.
    + eapply step_tbound; [exact W|exact B|exact E|exact PP|]. intros n k t d al X. injection X as <- <- <- <- <-. pose proof (ttl_pos g). lia.
    + intros c0 X. destruct (v =? 0); [|destruct (v =? 1)]; cbn in X; injection X as <-; exact PP.
  - destruct (fragDataLock s o) as [s1| | |] eqn:E; try discriminate. cbn [obind] in H. inversion H; subst. apply lock_ct in E. rewrite E. split; [exact B|]. intros c0 X. injection X as <-. exact PP.
  - destruct (fragDataUnlock s o) as [[s1 ob1]| | |] eqn:E; try discriminate. cbn [obind] in H. inversion H; subst. split; [eapply UN; eauto|]. intros c0 X. injection X as <-. exact PP.
  - destruct (lookup_op s (c_now c) (c_k c)) as [[[s1 o] ob1]| | |] eqn:E; try discriminate. cbn [obind] in H. pose proof (LK _ _ PP _ _ E) as B1.
    destruct (o =? 0); inversion H; subst; (split; [exact B1|]); intros c0 X; cbn in X; try discriminate; injection X as <-; exact PP.
  - destruct (fragDataUnlock s o) as [[s1 ob1]| | |] eqn:E; try discriminate. cbn [obind] in H. inversion H; subst. split; [eapply UN; eauto|]. intros c0 X. discriminate.
  - destruct (oget (s_objs s) o) as [b|]; [|discriminate].
    assert (S0 : forall x, s_ct (set_obj s o x) = s_ct s) by reflexivity.
    destruct c as [n k v w|n k|n k d]; destruct (o_state b); cbn [obind] in H; try destruct (a_done a); cbn [obind] in H;
      try (inversion H; subst; (split; [exact B|]); intros c0 X; injection X as <-; exact PP).
    destruct (table_op s (ORemove n k)) as [[[s1 v1] ob1]| | |] eqn:E; try discriminate. cbn [obind] in H. inversion H; subst. apply table_op_ct in E. destruct E as (ev & E). split.
    + change (s_ct (inc_reas s1)) with (s_ct s1). eapply step_tbound; [exact W|exact B|exact E|exact PP|discriminate].
    + intros c0 X. injection X as <-. exact PP.
  - destruct (fragDataUnlock s o) as [[s1 ob1]| | |] eqn:E; try discriminate. cbn [obind] in H. inversion H; subst. split; [eapply UN; eauto|]. intros c0 X. injection X as <-. exact PP.
  - assert (X : s_ct s' = s_ct s /\ p' = Idle) by (destruct c as [n k v []|n k|n k d]; inversion H; auto). destruct X as (X1 & ->). rewrite X1. split; [exact B|discriminate].
  - destruct (oget (s_objs s) o) as [b|]; [|discriminate].
    destruct (o_state b); destruct c as [n k v w|n k|n k d]; try destruct (g_mtu g <? zlen d); inversion H; subst; (split; [exact B|]); intros c0 X; injection X as <-; exact PP.
  - destruct (oget (s_objs s) o) as [b|]; [|discriminate]. destruct (o_val b); inversion H; subst. split; [exact B|]. intros c0 X. injection X as <-. exact PP.
  - destruct c as [n k v w|n k|n k d]; try discriminate. destruct (s_frfree s <=? 0); inversion H; subst; (split; [exact B|]); intros c0 X; injection X as <-; exact PP.
  - destruct (oget (s_objs s) o) as [b|]; [|discriminate]. inversion H; subst. split; [exact B|]. intros c0 X. injection X as <-. exact PP.
  - destruct (fragDataUnlock s o) as [[s1 ob1]| | |] eqn:E; try discriminate. cbn [obind] in H. inversion H; subst. split; [eapply UN; eauto|]. intros c0 X. injection X as <-. exact PP.
  - inversion H; subst. split; [exact B|discriminate].
  - destruct (oget (s_objs s) o) as [b|]; [|discriminate]. destruct (o_state b); [destruct (o_val b)| |]; inversion H; subst; (split; [exact B|]); intros c0 X; injection X as <-; exact PP.
  - inversion H; subst. split; [exact B|]. intros c0 X. injection X as <-. exact PP.
  - destruct (fragDataUnlock s o) as [[s1 ob1]| | |] eqn:E; try discriminate. cbn [obind] in H. inversion H; subst. split; [eapply UN; eauto|]. discriminate.
Qed.

Lemma gc_bucket_ct s i now s' ob b : znth (t_buckets (s_ct s)) i = Some b -> gc_bucket s i now = Ok (s', ob) ->
  stored_tr ob = [] /\ handed_tr ob = [] /\ exists b' ev n a, bucketGC b now = (b', ev, n, a) /\ t_buckets (s_ct s') = zupd (t_buckets (s_ct s)) i b'.
Proof.
  intros Z H. unfold gc_bucket in H. assert (Ea : aget (t_buckets (s_ct s)) i = Ok b) by (apply aget_ok; assumption). rewrite Ea in H. cbn [obind] in H.
  destruct (bucketGC b now) as [[[b' ev] n] a]. apply callbacks_ct in H. destruct H as (H & B & C). rewrite H. split; [exact B|]. split; [exact C|]. exists b', ev, n, a. auto.
Qed.
Lemma gc_bucket_time T g s i now s' ob : winv (s_ct s) -> tbound T (g_ttl g) (s_ct s) -> 0 <= i < zlen (t_buckets (s_ct s)) -> gc_bucket s i now = Ok (s', ob) -> tbound T (g_ttl g) (s_ct s').
Proof.
  intros W B Hi H. destruct (znth_in_range _ _ _ Hi) as [b Hb]. destruct (gc_bucket_ct _ _ _ _ _ _ Hb H) as (_ & _ & b' & ev & n & a & E & E2).
  intros c (j & x & Zj & Ij). rewrite E2 in Zj. destruct (bucketGC_spec _ _ _ _ _ _ E (W _ _ Hb)) as (_ & _ & G3 & _). apply B.
  destruct (Z.eq_dec j i) as [->|N].
  - rewrite znth_zupd_eq in Zj by lia. injection Zj as <-. rewrite G3 in Ij. apply filter_In in Ij. exists i, b. tauto.
  - rewrite znth_zupd_neq in Zj by auto. exists j, x. auto.
Qed.

Lemma by_exec T g w tr w' : exec_by T g w tr w' -> exec g w tr w'.
Proof. induction 1; [constructor|econstructor; eauto]. Qed.
Lemma by_time T g n w0 tr w : conf_ok g -> 0 <= T -> exec_by T g w0 tr w -> w0 = start g n -> Timed T g w.
Proof.
  intros G T0 H. induction H as [w|w tr w1 l ob w2 H IH HT HS]; intros E.
  - subst w. split.
    + intros c (i & b & Hb & Hc). apply znth_In in Hb. cbn [start w_sys fragTableCreate s_ct ctCreate t_buckets] in Hb. apply repeat_spec in Hb. subst b. destruct Hc.
    + apply Forall_forall. intros p Hp. apply repeat_spec in Hp. subst p. discriminate.
  - destruct (IH E) as (B & F). destruct (exec_ok g n w tr w1 G (by_exec _ _ _ _ _ H) E) as (I & BK). pose proof (v_wf _ _ _ _ _ I) as W. destruct l as [i a|i now]; cbn [wstep timed] in *.
    + destruct (znth (w_pcs w1) i) as [p|] eqn:Zp; [|discriminate]. destruct (tstep g (w_sys w1) p a) as [[[s' p'] ob']| | |] eqn:ES; try discriminate. cbn [obind] in HS.
      inversion HS; subst. assert (IP : in_time T p) by (rewrite Forall_forall in F; apply F; eapply znth_In; eauto).
      destruct (tstep_time T g _ _ _ _ _ _ W B IP HT ES) as (B' & P'). split; [exact B'|]. cbn [w_pcs]. apply Forall_forall. intros q Hq. apply In_znth in Hq. destruct Hq as (j & Hq).
      destruct (Z.eq_dec j i) as [->|N]; [|rewrite znth_zupd_neq in Hq by auto; rewrite Forall_forall in F; apply F; eapply znth_In; eauto].
      pose proof (znth_some_range _ _ _ _ Zp). rewrite znth_zupd_eq in Hq by lia. injection Hq as <-. exact P'.
    + destruct ((0 <=? i) && (i <? zlen (t_buckets (s_ct (w_sys w1))))) eqn:Ei; [|discriminate]. apply andb_true_iff in Ei.
      destruct (gc_bucket (w_sys w1) i now) as [[s' ob']| | |] eqn:EG; try discriminate. cbn [obind] in HS. inversion HS; subst. split; [|exact F]. cbn [w_sys].
      eapply gc_bucket_time; [exact W|exact B| |exact EG]. lia.
Qed.

(** ** Collecting everything *)
Lemma collect_ok T g : forall n tr s ps i now, Inv g tr s ps [] -> Bk g s -> tbound T (g_ttl g) (s_ct s) -> 0 <= i -> i + Z.of_nat n <= zlen (t_buckets (s_ct s)) ->
  exists s' ob, collect n s i now = Ok (s', ob) /\ Inv g (tr ++ ob) s' ps [] /\ Bk g s' /\ tbound T (g_ttl g) (s_ct s') /\ stored_tr ob = [] /\ handed_tr ob = [] /\
    zlen (t_buckets (s_ct s')) = zlen (t_buckets (s_ct s)) /\
    (forall j b, znth (t_buckets (s_ct s')) j = Some b -> i <= j < i + Z.of_nat n -> exists b0, wfb b0 /\ znth (t_buckets (s_ct s)) j = Some b0 /\ exists ev m a, bucketGC b0 now = (b, ev, m, a)) /\
    (forall j, j < i \/ i + Z.of_nat n <= j -> znth (t_buckets (s_ct s')) j = znth (t_buckets (s_ct s)) j).
Proof.
  induction n as [|n IH]; intros tr s ps i now I BK B I0 IL; cbn [collect].
  - exists s, []. rewrite app_nil_r. split; [reflexivity|]. do 6 (split; [auto|]). split; [intros; lia|auto].
  - destruct (gc_bucket_ok g tr s ps i now I BK ltac:(lia)) as (s1 & ob1 & E1 & I1 & BK1). rewrite E1. cbn [obind].
    pose proof (gc_bucket_time T g s i now s1 ob1 (v_wf _ _ _ _ _ I) B ltac:(lia) E1) as B1. destruct (znth_in_range _ (t_buckets (s_ct s)) i ltac:(lia)) as [b Hb].
    destruct (gc_bucket_ct _ _ _ _ _ _ Hb E1) as (S1 & H1 & b' & ev & m & a & EG & E2). assert (L1 : zlen (t_buckets (s_ct s1)) = zlen (t_buckets (s_ct s))) by (rewrite E2; apply zlen_zupd).
    destruct (IH (tr ++ ob1) s1 ps (i + 1) now I1 BK1 B1 ltac:(lia) ltac:(lia)) as (s2 & ob2 & EC & I2 & BK2 & B2 & S2 & H2 & L2 & A2 & O2). rewrite EC. cbn [obind].
    exists s2, (ob1 ++ ob2). rewrite app_assoc, stored_tr_app, handed_tr_app, S1, S2, H1, H2. split; [reflexivity|]. do 6 (split; [auto; try lia|]). split.
    + intros j x Zj R. destruct (Z.eq_dec j i) as [->|N].
      * rewrite O2, E2, znth_zupd_eq in Zj by lia. injection Zj as <-. exists b. split; [exact (v_wf _ _ _ _ _ I _ _ Hb)|]. split; [exact Hb|]. eauto.
      * destruct (A2 _ _ Zj ltac:(lia)) as (b0 & W0 & Z0 & X0). exists b0. split; [exact W0|]. split; [|exact X0]. rewrite E2, znth_zupd_neq in Z0 by auto. exact Z0.
    + intros j R. rewrite O2 by lia. rewrite E2, znth_zupd_neq by lia. reflexivity.
Qed.

Lemma stale_end T g c : 0 <= c_ref c <= T -> 0 <= c_ttl c <= g_ttl g -> T + g_ttl g < UINT64_MAX -> fresh UINT64_MAX c = false.
Proof.
  intros R L E. unfold fresh, stale, u64. rewrite Z.mod_small by (unfold UINT64_MAX, two64 in *; lia). destruct (c_ttl c <? UINT64_MAX - c_ref c) eqn:X; [reflexivity|lia].
Qed.

Lemma empty_end T g b0 b ev m a : wfb b0 -> (forall c, In c (bents b0) -> 0 <= c_ref c <= T /\ 0 <= c_ttl c <= g_ttl g) -> T + g_ttl g < UINT64_MAX ->
  bucketGC b0 UINT64_MAX = (b, ev, m, a) -> bucket_data b = [] /\ b_chain b = [].
Proof.
  intros W B E H. destruct (bucketGC_spec _ _ _ _ _ _ H W) as (W' & _ & G3 & G4 & _).
  assert (N : forall c, In c (bents b0) -> fresh UINT64_MAX c = false) by (intros c Hc; destruct (B c Hc); eapply stale_end; eauto).
  assert (X : bents b = []). { rewrite G3. destruct (filter _ _) as [|c r] eqn:F; [reflexivity|]. assert (Hc : In c (filter (fresh UINT64_MAX) (bents b0))) by (rewrite F; left; reflexivity).
    apply filter_In in Hc. destruct Hc as (Hc & Hf). rewrite (N c Hc) in Hf. discriminate. }
  split; [rewrite bucket_data_eq, X; reflexivity|].
  pose proof (filter_occ_chain b W') as F. destruct b as [mm l]. rewrite bents_split in X. apply app_eq_nil in X. cbn [b_chain] in *. destruct X as (_ & X). rewrite F in X. exact X.
Qed.

Lemma flat_quiet A (f : pc -> list A) ps : Forall (fun p => p = Idle) ps -> f Idle = [] -> flat_map f ps = [].
Proof. induction 1 as [|p ps E _ IH]; intros N; [reflexivity|]. cbn. rewrite E, N, IH; auto. Qed.

Lemma end_ok T g n tr w nsec : conf_seq g -> 0 < g_maxBuckets g -> 0 < g_maxFragments g -> 0 <= T -> T + g_ttl g < UINT64_MAX ->
  exec_by T g (start g n) tr w -> quiet w ->
  exists s' ob, fragTableDestroy true g (w_sys w) nsec = Ok (s', ob) /\ all_back g s' /\ Permutation (discarded_tr ob) (waiting (w_sys w)) /\ stored_tr ob = [] /\ handed_tr ob = [] /\
    s_discarded s' = u32 (zlen (discarded_tr tr) + zlen (waiting (w_sys w))).
Proof.
  intros (G & GS) MB MF T0 TT H Q. destruct (exec_ok g n _ _ _ G (by_exec _ _ _ _ _ H) eq_refl) as (I & BK). destruct (by_time T g n _ _ _ G T0 H eq_refl) as (B & _).
  unfold fragTableDestroy, toNanos, collect_all. cbn [orb obind].
  destruct (collect_ok T g (length (t_buckets (s_ct (w_sys w)))) tr (w_sys w) (w_pcs w) 0 (u64 (MAXTIME * 1000000000 + nsec)) I BK B ltac:(lia) ltac:(unfold zlen; lia))
    as (s1 & ob1 & E1 & I1 & BK1 & B1 & S1 & H1 & L1 & _). rewrite E1. cbn [obind].
  destruct (collect_ok T g (length (t_buckets (s_ct s1))) (tr ++ ob1) s1 (w_pcs w) 0 UINT64_MAX I1 BK1 B1 ltac:(lia) ltac:(unfold zlen; lia))
    as (s2 & ob2 & E2 & I2 & BK2 & B2 & S2 & H2 & L2 & A2 & _). rewrite E2. cbn [obind].
  destruct G as (G1 & G2 & G3). assert (FD : u32 (g_hsize g + g_maxBuckets g) = g_hsize g + g_maxBuckets g) by (unfold u32; apply Z.mod_small; lia).
  unfold poolDestroy, itemPoolDestroy. cbn [p_mem]. rewrite FD. destruct (g_hsize g + g_maxBuckets g =? 0) eqn:X1; [lia|]. destruct (g_maxFragments g =? 0) eqn:X2; [lia|]. destruct (g_maxBuckets g =? 0) eqn:X3; [lia|].
  cbn [negb obind]. exists s2, (ob1 ++ ob2). split; [reflexivity|].
  assert (EM : forall b, In b (t_buckets (s_ct s2)) -> bucket_data b = [] /\ b_chain b = []).
  { intros b Hb. apply In_znth in Hb. destruct Hb as (j & Hj). pose proof (znth_some_range _ _ _ _ Hj) as R. destruct (A2 j b Hj) as (b0 & W0 & Z0 & ev & m & a & EG); [unfold zlen in *; lia|].
    eapply (empty_end T g); [exact W0| |exact TT|exact EG]. intros c Hc. apply B1. exists j, b0. auto. }
  assert (SD : stored_data (s_ct s2) = []). { unfold stored_data. revert EM. generalize (t_buckets (s_ct s2)). induction l as [|b l IH]; intros EM; [reflexivity|]. cbn [flat_map]. rewrite (proj1 (EM b (or_introl eq_refl))). apply IH. intros; apply EM; right; auto. }
  assert (SB : stored_buckets (s_ct s2) = []). { unfold stored_buckets. revert EM. generalize (t_buckets (s_ct s2)). induction l as [|b l IH]; intros EM; [reflexivity|]. cbn. rewrite (proj2 (EM b (or_introl eq_refl))). apply IH. intros; apply EM; right; auto. }
  assert (FH : flat_map held (w_pcs w) = []) by (apply flat_quiet; auto).
  assert (FT : flat_map taken (w_pcs w) = []) by (apply flat_quiet; auto).
  assert (FN : flat_map hand (w_pcs w) = []) by (apply flat_quiet; auto).
  assert (NO : s_objs s2 = []).
  { destruct (s_objs s2) as [|[o b] r] eqn:EO; [reflexivity|exfalso]. assert (GO : oget (s_objs s2) o = Some b) by (rewrite EO; cbn; rewrite Z.eqb_refl; reflexivity).
    pose proof (v_pos _ _ _ _ _ I2 _ _ GO) as P. pose proof (v_ref _ _ _ _ _ I2 o) as R. unfold Frag_Proofs.rc in R. rewrite GO, SD, FH in R. cbn in R. unfold cnt in R. cbn in R. lia. }
  assert (WN : waiting s2 = []) by (unfold waiting; rewrite NO; reflexivity).
  pose proof (v_fr _ _ _ _ _ I2) as VF. pose proof (v_fd _ _ _ _ _ I2) as VD. destruct BK2 as (_ & VB). rewrite WN, FT, FN in VF. rewrite NO in VD. rewrite SB in VB. change (zlen (@nil (ckey * frag))) with 0 in VF. change (zlen (@nil frag)) with 0 in VF. change (zlen (@nil (Z * obj))) with 0 in VD. change (zlen (@nil Z)) with 0 in VB.
  pose proof (v_cons _ _ _ _ _ I) as C0. pose proof (v_cons _ _ _ _ _ I2) as C2. rewrite <- app_assoc in C2. rewrite WN, FT in C2. rewrite FT in C0. cbn [app] in C0, C2.
  rewrite stored_tr_app, handed_tr_app, discarded_tr_app in C2. rewrite (stored_tr_app ob1), (handed_tr_app ob1), S1, S2, H1, H2 in C2. cbn [app] in C2. rewrite !app_nil_r in C2.
  assert (PD : Permutation (discarded_tr (ob1 ++ ob2)) (waiting (w_sys w))).
  { apply (Permutation_app_inv_r (handed_tr tr ++ discarded_tr tr)). rewrite <- C0, C2. rewrite (Permutation_app_comm (discarded_tr (ob1 ++ ob2))). rewrite <- app_assoc. reflexivity. }
  split. { unfold all_back. rewrite <- FD. do 3 (split; [assumption|]). split; [lia|]. split; lia. }
  split; [exact PD|]. rewrite stored_tr_app, handed_tr_app, S1, S2, H1, H2. split; [reflexivity|]. split; [reflexivity|].
  rewrite (v_disc _ _ _ _ _ I2), <- app_assoc, discarded_tr_app, zlen_app, (zlen_perm _ _ _ PD). reflexivity.
Qed.

(** By the C standard it is undefined, always. *)
Lemma end_overflows g s nsec : fragTableDestroy false g s nsec = UB.
Proof. reflexivity. Qed.
(** Without buffers for fragments, or without extra buckets, also otherwise. *)
Lemma end_empty_pool g n tr w nsec wrap : conf_ok g -> exec g (start g n) tr w -> g_maxFragments g = 0 \/ g_maxBuckets g = 0 -> fragTableDestroy wrap g (w_sys w) nsec = UB.
Proof.
  intros G H E. destruct (exec_ok g n _ _ _ G H eq_refl) as (I & BK). unfold fragTableDestroy. destruct (toNanos wrap MAXTIME nsec) as [now| | |] eqn:N; try reflexivity;
    try (unfold toNanos in N; destruct (wrap || _); discriminate). cbn [obind].
  assert (CO : forall n tr s i now, Inv g tr s (w_pcs w) [] -> Bk g s -> 0 <= i -> i + Z.of_nat n <= zlen (t_buckets (s_ct s)) -> exists s' ob, collect n s i now = Ok (s', ob) /\ Inv g (tr ++ ob) s' (w_pcs w) [] /\ Bk g s').
  { clear - w. induction n as [|n IH]; intros tr s i now I BK I0 IL; cbn [collect]; [exists s, []; rewrite app_nil_r; auto|].
    destruct (gc_bucket_ok g tr s (w_pcs w) i now I BK ltac:(lia)) as (s1 & ob1 & E1 & I1 & BK1). rewrite E1. cbn [obind].
    assert (L1 : zlen (t_buckets (s_ct s1)) = zlen (t_buckets (s_ct s))) by (rewrite (v_len _ _ _ _ _ I1), (v_len _ _ _ _ _ I); reflexivity).
    destruct (IH (tr ++ ob1) s1 (i + 1) now I1 BK1 ltac:(lia) ltac:(lia)) as (s2 & ob2 & E2 & I2 & BK2). rewrite E2. cbn [obind]. exists s2, (ob1 ++ ob2). rewrite app_assoc. auto. }
  unfold collect_all. destruct (CO (length (t_buckets (s_ct (w_sys w)))) tr (w_sys w) 0 now I BK ltac:(lia) ltac:(unfold zlen; lia)) as (s1 & ob1 & E1 & I1 & BK1). rewrite E1. cbn [obind].
  destruct (CO (length (t_buckets (s_ct s1))) (tr ++ ob1) s1 0 UINT64_MAX I1 BK1 ltac:(lia) ltac:(unfold zlen; lia)) as (s2 & ob2 & E2 & _). rewrite E2. cbn [obind].
  unfold poolDestroy, itemPoolDestroy. cbn [p_mem]. destruct E as [-> | ->]; cbn [Z.eqb negb]; destruct (negb _); cbn [obind]; try reflexivity. destruct (negb _); reflexivity.
Qed.
