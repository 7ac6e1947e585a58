(** The counters count (C73). *)
From Coq Require Import String Lia Permutation.
From Verif Require Import Base Lists Cstr_Model IpKey_Model Util_Proofs Flow2_Proofs Rangeset_Spec Conntrack_Model Conntrack_Spec Conntrack_Proofs Conntrack2_Proofs
  Frag_Model Print_Spec Stats_Model Stats_Spec Stats_Proofs.

Lemma u32_add a b : u32 (u32 a + b) = u32 (a + b).
Proof. unfold u32. apply Zplus_mod_idemp_l. Qed.
Lemma u32_range a : 0 <= u32 a < two32.
Proof. apply Z.mod_pos_bound. reflexivity. Qed.
Lemma u32_idem a : u32 (u32 a) = u32 a.
Proof. rewrite u32_small; auto using u32_range. Qed.

Definition counters_ok (s : cstats) : Prop :=
  0 <= s_collisions s < two32 /\ 0 <= s_inserts s < two32 /\ 0 <= s_rejected s < two32 /\ 0 <= s_lookups s < two32 /\ 0 <= s_objGC s < two32.

(** The increase of the counter of collected entries is the number of entries
    given back. *)
Lemma gc_main_n m now m' ev n : gc_main m now = (m', ev, n) -> n = zlen (freed_data ev).
Proof. unfold gc_main. destruct (_ && _); intros H; injection H as <- <- <-; reflexivity. Qed.
Lemma gc_chain_n l now : (forall c, In c l -> c_data c <> 0) -> forall l' ev n, gc_chain l now = (l', ev, n) -> n = zlen (freed_data ev).
Proof.
  induction l as [|e r IH]; cbn; intros W l' ev n H; [injection H as <- <- <-; reflexivity|].
  destruct (gc_chain r now) as [[r' e2] n2]. assert (n2 = zlen (freed_data e2)) as Q by (eapply IH; [intros; apply W; auto|reflexivity]).
  destruct (stale e now); injection H as <- <- <-; auto.
  destruct (c_data e =? 0) eqn:D; [exfalso; apply (W e); [auto|lia]|]. cbn [app freed_data]. unfold zlen in *. cbn [length]. change (1 + n2 = Z.of_nat (S (length (freed_data e2)))). lia.
Qed.
Lemma bucketGC_n b now b' ev n a : wfb b -> bucketGC b now = (b', ev, n, a) -> n = zlen (freed_data ev).
Proof.
  intros W. unfold bucketGC. destruct (gc_main (b_main b) now) as [[m e1] n1] eqn:E1. destruct (gc_chain (b_chain b) now) as [[l e2] n2] eqn:E2.
  intros H. injection H as <- <- <- <-. rewrite freed_data_app. rewrite (gc_main_n _ _ _ _ _ E1), (gc_chain_n _ _ (wf_chain _ W) _ _ _ E2).
  unfold zlen. rewrite app_length. lia.
Qed.
Lemma lookupBucket_n b now b' ev n : wfb b -> lookupBucket b now = (b', ev, n) -> n = zlen (freed_data ev).
Proof.
  intros W. unfold lookupBucket. destruct (gc_main (b_main b) now) as [[m e1] n1] eqn:E1. pose proof (gc_main_n _ _ _ _ _ E1) as N1.
  destruct (b_chain b) as [|c r] eqn:C; [intros H; injection H as <- <- <-; auto|].
  destruct (bucketGC (mkBucket m (c :: r)) now) as [[[b2 e2] n2] a2] eqn:E2. intros H. injection H as <- <- <-.
  rewrite freed_data_app. assert (n2 = zlen (freed_data e2)) as ->.
  { unfold bucketGC in E2. cbn [b_main b_chain] in E2. destruct (gc_main m now) as [[m3 e3] n3] eqn:E3. destruct (gc_chain (c :: r) now) as [[l4 e4] n4] eqn:E4.
    injection E2 as <- <- <- <-. rewrite freed_data_app, (gc_main_n _ _ _ _ _ E3), (gc_chain_n (c :: r) now) with (2 := E4).
    - unfold zlen. rewrite app_length. lia.
    - rewrite <- C. apply (wf_chain _ W). }
  unfold zlen in *. rewrite app_length. lia.
Qed.
Lemma gc_all_n l now : (forall b, In b l -> wfb b) -> forall l' ev n a, gc_all l now = (l', ev, n, a) -> n = zlen (freed_data ev).
Proof.
  induction l as [|b r IH]; cbn; intros W l' ev n a H; [injection H as <- <- <- <-; reflexivity|].
  destruct (bucketGC b now) as [[[b' e1] n1] a1] eqn:E1. destruct (gc_all r now) as [[[r' e2] n2] a2].
  injection H as <- <- <- <-. rewrite freed_data_app, (bucketGC_n _ _ _ _ _ _ (W b (or_introl eq_refl)) E1).
  rewrite (IH (fun b H => W b (or_intror H)) _ _ _ _ eq_refl). unfold zlen. rewrite app_length. lia.
Qed.

Definition b2z (b : bool) : Z := if b then 1 else 0.
Definition is_lookup (o : cop) := match o with OLookup _ _ => true | _ => false end.
Definition is_insert (o : cop) := match o with OInsert _ _ _ d _ => negb (d =? 0) | _ => false end.
Definition is_remove (o : cop) := match o with ORemove _ _ => true | _ => false end.

Lemma step_counts t o t' v ev : winv t -> counters_ok (t_stats t) -> cstep t o = Ok (t', v, ev) ->
  counters_ok (t_stats t') /\
  s_lookups (t_stats t') = u32 (s_lookups (t_stats t) + b2z (is_lookup o)) /\
  s_inserts (t_stats t') = u32 (s_inserts (t_stats t) + b2z (is_insert o)) /\
  s_rejected (t_stats t') = u32 (s_rejected (t_stats t) + b2z (is_insert o && (v =? -1))) /\
  (is_remove o = false -> s_objGC (t_stats t') = u32 (s_objGC (t_stats t) + zlen (freed_data ev))).
Proof.
  intros W K H. destruct K as (K1 & K2 & K3 & K4 & K5).
  assert (Z0 : forall x, 0 <= x < two32 -> x = u32 (x + 0)) by (intros x Hx; rewrite Z.add_0_r, u32_small; auto).
  destruct o as [now k|now k ttl d al|now k|now]; cbn [cstep is_lookup is_insert is_remove b2z andb] in *.
  - unfold ctLookup in H. destruct (slot (t_buckets t) k) as [i| | |]; try discriminate. cbn [obind] in H.
    destruct (aget (t_buckets t) i) as [b| | |] eqn:Eb; try discriminate. apply aget_ok in Eb. cbn [obind] in H.
    destruct (lookupBucket b now) as [[b1 e] n] eqn:EL. pose proof (lookupBucket_n _ _ _ _ _ (W _ _ Eb) EL) as N. subst n.
    destruct (search b1 k now) as [[b2 d]|]; injection H as <- <- <-; cbn; unfold counters_ok; cbn;
      (split; [repeat split; try apply u32_range; lia|]; split; [reflexivity|]; split; [auto|]; split; [auto|]; reflexivity).
  - unfold ctInsertWithTTL in H. destruct (d =? 0) eqn:Ed; cbn [negb andb b2z].
    { injection H as <- <- <-. cbn [t_stats]. split; [unfold counters_ok; auto|]. split; [auto|]. split; [auto|]. split; [auto|]. intros _. apply Z0. auto. }
    destruct (slot (t_buckets t) k) as [i| | |]; try discriminate. cbn [obind] in H.
    destruct (aget (t_buckets t) i) as [b| | |] eqn:Eb; try discriminate. apply aget_ok in Eb. cbn [obind] in H.
    destruct (lookupBucket b now) as [[b1 e] n] eqn:EL. pose proof (lookupBucket_n _ _ _ _ _ (W _ _ Eb) EL) as N. subst n.
    destruct (search b1 k now) as [[b2 d2]|].
    { injection H as <- <- <-. cbn. unfold counters_ok. cbn. split; [repeat split; try apply u32_range; lia|]. split; [auto|]. split; [reflexivity|]. split; [auto|]. reflexivity. }
    destruct (c_data (b_main b1) =? 0).
    { destruct (b_chain b1); injection H as <- <- <-; cbn; unfold counters_ok; cbn;
        (split; [repeat split; try apply u32_range; lia|]; split; [auto|]; split; [reflexivity|]; split; [auto|]; reflexivity). }
    destruct al as [m|]; injection H as <- <- <-; cbn; unfold counters_ok; cbn;
      (split; [repeat split; try apply u32_range; lia|]; split; [auto|]; split; [reflexivity|]; split; [auto|];
       rewrite freed_data_app; cbn [freed_data]; rewrite app_nil_r; reflexivity).
  - unfold ctRemove in H. destruct (slot (t_buckets t) k) as [i| | |]; try discriminate. cbn [obind] in H.
    destruct (aget (t_buckets t) i) as [b| | |] eqn:Eb; try discriminate. cbn [obind] in H.
    destruct (lookupBucket b now) as [[b1 e] n]. destruct (key_eqb k (c_key (b_main b1))); [|destruct (remove_chain (b_chain b1) k) as [l e']];
      cbn [obind] in H; injection H as <- <- <-; cbn; unfold counters_ok; cbn;
      (split; [repeat split; try apply u32_range; lia|]; split; [auto|]; split; [auto|]; split; [auto|]; discriminate).
  - unfold ctStats in H. destruct (gc_all (t_buckets t) now) as [[[l e] n] a] eqn:E. injection H as <- <- <-.
    assert (N : n = zlen (freed_data e)).
    { eapply gc_all_n; [|exact E]. intros b Hb. apply In_znth in Hb. destruct Hb as [i Hi]. exact (W _ _ Hi). }
    subst n. cbn. unfold counters_ok. cbn. split; [repeat split; try apply u32_range; lia|]. split; [auto|]. split; [auto|]. split; [auto|]. reflexivity.
Qed.

Lemma run_counts ops : forall t t' vs ev, winv t -> counters_ok (t_stats t) -> crun t ops = Ok (t', vs, ev) ->
  s_lookups (t_stats t') = u32 (s_lookups (t_stats t) + lookups ops) /\
  s_inserts (t_stats t') = u32 (s_inserts (t_stats t) + inserts ops) /\
  s_rejected (t_stats t') = u32 (s_rejected (t_stats t) + refusals ops vs) /\
  (no_removal ops -> s_objGC (t_stats t') = u32 (s_objGC (t_stats t) + zlen (freed_data ev))).
Proof.
  induction ops as [|o ops IH]; intros t t' vs ev W K H; cbn [crun] in H.
  - injection H as <- <- <-. destruct K as (K1 & K2 & K3 & K4 & K5). unfold lookups, inserts. cbn. rewrite !Z.add_0_r, !u32_small; auto.
  - destruct (cstep t o) as [[[t1 v] ev1]| | |] eqn:E; try discriminate. cbn [obind] in H.
    destruct (crun t1 ops) as [[[t2 vs2] ev2]| | |] eqn:E2; try discriminate. cbn [obind] in H. injection H as <- <- <-.
    destruct (step_conserves _ _ _ _ _ W E) as [W1 _]. destruct (step_counts _ _ _ _ _ W K E) as (K' & S1 & S2 & S3 & S4).
    destruct (IH _ _ _ _ W1 K' E2) as (R1 & R2 & R3 & R4). rewrite R1, R2, R3, S1, S2, S3, !u32_add.
    split; [f_equal; unfold lookups; cbn [filter]; unfold is_lookup; destruct o; cbn [b2z]; unfold zlen; cbn [length]; lia|].
    split; [f_equal; unfold inserts; cbn [filter]; unfold is_insert; destruct o as [| now k ttl d al| |]; cbn [b2z]; try lia; destruct (negb (d =? 0)); unfold zlen; cbn [b2z length]; lia|].
    split; [f_equal; unfold is_insert; destruct o as [| now k ttl d al| |]; cbn [b2z refusals andb]; try lia; destruct (negb (d =? 0) && (v =? -1)); cbn [b2z]; lia|].
    intros N. rewrite R4, S4, u32_add, freed_data_app.
    + f_equal. unfold zlen. rewrite app_length. lia.
    + destruct o; auto. exfalso. eapply N. left. reflexivity.
    + intros now k X. eapply N. right. exact X.
Qed.

Lemma created_counts size ops t vs ev : crun (ctCreate size) ops = Ok (t, vs, ev) ->
  s_lookups (t_stats t) = u32 (lookups ops) /\ s_inserts (t_stats t) = u32 (inserts ops) /\ s_rejected (t_stats t) = u32 (refusals ops vs) /\
  (no_removal ops -> s_objGC (t_stats t) = u32 (zlen (inserted ops vs) - zlen (stored_data t))).
Proof.
  intros H. destruct (run_counts ops _ _ _ _ (create_winv size) ltac:(unfold counters_ok; cbn; unfold two32; lia) H) as (R1 & R2 & R3 & R4).
  cbn in R1, R2, R3, R4. split; [auto|]. split; [auto|]. split; [auto|]. intros N. rewrite (R4 N). f_equal.
  destruct (data_conserved _ _ _ _ _ H) as [P _]. apply Permutation_length in P. rewrite app_length in P. unfold zlen. lia.
Qed.

(** ** The shared object of one process *)
Lemma count_app p a b : count p (a ++ b) = count p a + count p b.
Proof. unfold count. rewrite filter_app. unfold zlen. rewrite app_length. lia. Qed.
Lemma count_alloc ev : count isAlloc ev = zlen (allocated ev).
Proof. induction ev as [|[d|m|[m|]] r IH]; cbn; auto; unfold count, zlen in *; cbn [filter isAlloc length]; lia. Qed.
Lemma count_free ev : count isFree ev = zlen (freed_buckets ev).
Proof. induction ev as [|[d|m|[m|]] r IH]; cbn; auto; unfold count, zlen in *; cbn [filter isFree length]; lia. Qed.

Definition in_range (f : fstats) : Prop := 0 <= z_bucketsAllocated f < two32 /\ 0 <= z_bucketsUsed f < two32.
Lemma counted_range f f' ev : counted f f' ev -> in_range f -> in_range f'.
Proof. intros (_ & _ & _ & _ & _ & A & B) [R1 R2]. split; [rewrite (A R1)|rewrite (B R2)]; apply u32_range. Qed.
Lemma counted_trans a b c e1 e2 : in_range a -> counted a b e1 -> counted b c e2 -> counted a c (e1 ++ e2).
Proof.
  intros R H1 H2. pose proof (counted_range _ _ _ H1 R) as [R1 R2]. destruct R as [Q1 Q2].
  destruct H1 as (A1 & A2 & A3 & A4 & A5 & A6 & A7), H2 as (B1 & B2 & B3 & B4 & B5 & B6 & B7).
  repeat split; try congruence; intros _; rewrite ?(B6 R1), ?(B7 R2), ?(A6 Q1), ?(A7 Q2), !count_app.
  - rewrite u32_add. f_equal. lia.
  - rewrite <- Z.add_sub_assoc, u32_add. f_equal. lia.
Qed.

Lemma private_run i n : forall ls h bs f,
  ho_proc h i = Some (mkProc n bs) -> ho_obj h n = Holds f -> z_size f = zlen bs -> 0 < zlen bs -> in_range f -> private i n h ls ->
  exists t vs ev f', crun (mkCt bs (ctOf f)) (ops_of i ls) = Ok (t, vs, ev) /\ ho_obj (fst (hrun h ls)) n = Holds f' /\
    ctOf f' = t_stats t /\ counted f f' ev.
Proof.
  induction ls as [|l r IH]; intros h bs f P O S Hb R [J F].
  { cbn. eexists; eexists; eexists; exists f. split; [reflexivity|]. split; [auto|]. split; [reflexivity|apply counted_nil]. }
  rewrite hrun_cons. cbn [fst]. pose proof (Forall_inv F) as Fl. apply Forall_inv_tail in F.
  assert (D : (exists o, l = HOp i o) \/ forall o, l <> HOp i o).
  { destruct l as [m|m|j m g|j o]; try (right; discriminate). destruct (Z.eq_dec j i) as [->|]; [left; eauto|right; congruence]. }
  destruct D as [[o ->]|D].
  - destruct (tableOp_cstep f bs o S Hb) as (t & v & ev & f' & C1 & C2 & C3 & C4 & C5).
    assert (E : hstep h (HOp i o) = (mkHost (Stats_Model.put (ho_obj h) n (Holds f')) (putp (ho_proc h) i (Some (mkProc n (t_buckets t)))), [(i, o, Some v)])).
    { cbn. rewrite P. cbn [pr_ft pr_tab]. rewrite O, C2. reflexivity. }
    rewrite E. cbn [fst ops_of]. rewrite Z.eqb_refl. cbn [crun]. rewrite C1. cbn [obind].
    destruct (IH (mkHost (Stats_Model.put (ho_obj h) n (Holds f')) (putp (ho_proc h) i (Some (mkProc n (t_buckets t))))) (t_buckets t) f')
      as (t2 & vs & ev2 & f2 & R1 & R2 & R3 & R4).
    + cbn. apply putp_eq.
    + cbn. apply put_eq.
    + destruct C4 as [C4 _]. lia.
    + lia.
    + eapply counted_range; eauto.
    + split; auto. intros j p Hp Hj. cbn in Hp. rewrite putp_ne in Hp by auto. eapply J; eauto.
    + destruct t as [tb ts]. cbn [t_buckets t_stats] in *. subst ts. rewrite R1. cbn [obind].
      eexists; eexists; eexists; exists f2. split; [reflexivity|]. split; [auto|]. split; [auto|]. eapply counted_trans; eauto.
  - assert (E : ops_of i (l :: r) = ops_of i r).
    { destruct l as [m|m|j m g|j o]; auto. cbn. destruct (j =? i) eqn:Ej; auto. exfalso. apply (D o). f_equal. lia. }
    rewrite E. assert (Q : ho_proc (fst (hstep h l)) i = Some (mkProc n bs) /\ ho_obj (fst (hstep h l)) n = Holds f /\
                          (forall j p, ho_proc (fst (hstep h l)) j = Some p -> j <> i -> pr_ft p <> n)).
    { destruct l as [m|m|j m g|j o]; cbn [hstep fst].
      - cbn. rewrite put_ne by auto. auto.
      - cbn. rewrite put_ne by auto. auto.
      - destruct Fl as [Fm Fj]. assert (G : forall x, (match x with Some p => pr_ft p <> n | None => True end) ->
           forall q p, putp (ho_proc h) j x q = Some p -> q <> i -> pr_ft p <> n).
        { intros x X q p Hp Hq. destruct (Z.eq_dec q j) as [->|N]; [rewrite putp_eq in Hp; subst x; auto|rewrite putp_ne in Hp by auto; eapply J; eauto]. }
        destruct (ho_obj h m) eqn:Om; cbn; rewrite ?put_ne by auto; rewrite putp_ne by auto; (split; [auto|]); (split; [auto|]); apply G; auto.
      - assert (j <> i) as Nj by (intros ->; eapply D; reflexivity).
        destruct (ho_proc h j) as [[m tab]|] eqn:Pj; [|cbn; auto]. cbn [pr_ft pr_tab].
        assert (m <> n) as Nm by (apply (J j _ Pj); auto).
        assert (G : forall x, (match x with Some p => pr_ft p <> n | None => True end) ->
           forall q p, putp (ho_proc h) j x q = Some p -> q <> i -> pr_ft p <> n).
        { intros x X q p Hp Hq. destruct (Z.eq_dec q j) as [->|N]; [rewrite putp_eq in Hp; subst x; auto|rewrite putp_ne in Hp by auto; eapply J; eauto]. }
        destruct (ho_obj h m) as [| |fm] eqn:Om; try (cbn; rewrite putp_ne by auto; split; [auto|]; split; [auto|]; apply G; auto; fail).
        destruct (tableOp fm tab o) as [[[[bs' f'] v] ev]| | |]; cbn; rewrite ?put_ne by auto; rewrite putp_ne by auto; (split; [auto|]); (split; [auto|]);
          apply G; auto. }
    destruct Q as (Q1 & Q2 & Q3). apply (IH (fst (hstep h l)) bs f); auto. split; auto.
Qed.

Lemma private_counts h i n g ls f0 : 0 < g_hsize g -> ho_obj h n = Holds f0 -> private i n h ls ->
  exists f t vs ev, ho_obj (fst (hrun h (HReady i n g :: ls))) n = Holds f /\ crun (ctCreate (g_hsize g)) (ops_of i ls) = Ok (t, vs, ev) /\
    z_size f = g_hsize g /\ z_ttlNanos f = g_ttl g /\ z_mtu f = g_mtu g /\ z_bucketsMax f = g_maxBuckets g /\ z_fragsMax f = g_maxFragments g /\
    z_lookups f = u32 (lookups (ops_of i ls)) /\ z_inserts f = u32 (inserts (ops_of i ls)) /\ z_rejected f = u32 (refusals (ops_of i ls) vs) /\
    (no_removal (ops_of i ls) -> z_objGC f = u32 (zlen (inserted (ops_of i ls) vs) - zlen (stored_data t))) /\
    z_bucketsAllocated f = u32 (zlen (allocated ev)) /\ z_bucketsUsed f = u32 (zlen (stored_buckets t)).
Proof.
  intros Hg Hf [J F]. rewrite hrun_cons. cbn [fst].
  set (h1 := mkHost (Stats_Model.put (ho_obj h) n (Holds (firstStats g))) (putp (ho_proc h) i (Some (mkProc n (t_buckets (ctCreate (g_hsize g))))))).
  assert (E : fst (hstep h (HReady i n g)) = h1) by (cbn; rewrite Hf; reflexivity). rewrite E.
  destruct (private_run i n ls h1 (t_buckets (ctCreate (g_hsize g))) (firstStats g)) as (t & vs & ev & f & R1 & R2 & R3 & R4).
  - cbn. apply putp_eq.
  - cbn. apply put_eq.
  - cbn. rewrite zlen_repeat. lia.
  - cbn. rewrite zlen_repeat. lia.
  - split; cbn; unfold two32; lia.
  - split; auto. intros j p Hp Hj. cbn in Hp. rewrite putp_ne in Hp by auto. eapply J; eauto.
  - change (mkCt (t_buckets (ctCreate (g_hsize g))) (ctOf (firstStats g))) with (ctCreate (g_hsize g)) in R1.
    exists f, t, vs, ev. split; [auto|]. split; [auto|]. destruct R4 as (A1 & A2 & A3 & A4 & A5 & A6 & A7).
    destruct (created_counts _ _ _ _ _ R1) as (C1 & C2 & C3 & C4).
    rewrite <- R3 in C1, C2, C3, C4. cbn in A1, A2, A3, A4, A5, A6, A7, C1, C2, C3, C4.
    split; [auto|]. split; [auto|]. split; [auto|]. split; [auto|]. split; [auto|]. split; [auto|]. split; [auto|]. split; [auto|]. split; [auto|].
    split; [rewrite A6 by (unfold two32; lia); f_equal; apply count_alloc|].
    rewrite A7 by (unfold two32; lia). f_equal. rewrite count_alloc, count_free.
    destruct (data_conserved _ _ _ _ _ R1) as [_ P]. apply Permutation_length in P. rewrite app_length in P. unfold zlen. lia.
Qed.
