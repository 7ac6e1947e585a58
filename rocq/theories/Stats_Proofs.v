(** Proofs about the statistics (C73) and processes that share them (C74). *)
From Coq Require Import String Lia.
From Verif Require Import Base Lists Cstr_Model IpKey_Model Util_Proofs Flow2_Proofs Rangeset_Spec Conntrack_Model Conntrack_Spec Conntrack_Proofs Frag_Model
  Print_Spec Stats_Model Stats_Spec.

(** ** A table whose size is in the shared object *)
Definition counted (f f' : fstats) (ev : list event) : Prop :=
  z_size f' = z_size f /\ z_ttlNanos f' = z_ttlNanos f /\ z_mtu f' = z_mtu f /\ z_bucketsMax f' = z_bucketsMax f /\ z_fragsMax f' = z_fragsMax f /\
  (0 <= z_bucketsAllocated f < two32 -> z_bucketsAllocated f' = u32 (z_bucketsAllocated f + count isAlloc ev)) /\
  (0 <= z_bucketsUsed f < two32 -> z_bucketsUsed f' = u32 (z_bucketsUsed f + count isAlloc ev - count isFree ev)).

Lemma counted_add f s ev : counted f (addStats f s ev) ev.
Proof. unfold counted. cbn. repeat split; auto. Qed.
Lemma u32_small x : 0 <= x < two32 -> u32 x = x.
Proof. intros. unfold u32. rewrite Z.mod_small; auto. Qed.
Lemma counted_nil f : counted f f [].
Proof. unfold counted, count. cbn. repeat split; auto; intros; rewrite u32_small; lia. Qed.

Lemma ctOf_add f s ev : ctOf (addStats f s ev) = s.
Proof. destruct s. reflexivity. Qed.

Lemma gc_all_len l now : forall l' ev n a, gc_all l now = (l', ev, n, a) -> zlen l' = zlen l.
Proof.
  induction l as [|b r IH]; cbn; intros l' ev n a H; [injection H as <- <- <- <-; reflexivity|].
  destruct (bucketGC b now) as [[[b' e1] n1] a1]. destruct (gc_all r now) as [[[r' e2] n2] a2] eqn:E.
  injection H as <- <- <- <-. unfold zlen in *. cbn [length]. specialize (IH _ _ _ _ eq_refl). lia.
Qed.

Lemma tableOp_cstep f bs o : z_size f = zlen bs -> 0 < zlen bs ->
  exists t v ev f', cstep (mkCt bs (ctOf f)) o = Ok (t, v, ev) /\ tableOp f bs o = Ok (t_buckets t, f', v, ev) /\
    ctOf f' = t_stats t /\ counted f f' ev /\ zlen (t_buckets t) = zlen bs.
Proof.
  intros Hs Hp.
  assert (S : forall k, slot bs k = Ok (djb2 k mod zlen bs)).
  { intros k. unfold slot. destruct (zlen bs =? 0) eqn:E; [lia|reflexivity]. }
  assert (A : forall k, exists b, aget bs (djb2 k mod zlen bs) = Ok b).
  { intros k. pose proof (Z.mod_pos_bound (djb2 k) (zlen bs) Hp) as B.
    destruct (aget_in_range _ bs _ B) as (b & Hb & _). eauto. }
  assert (N : (z_size f =? 0) = false) by lia.
  assert (L : forall i (b : bucket), zlen (zupd bs i b) = zlen bs) by (intros; apply zlen_zupd).
  destruct o as [now k|now k ttl d al|now k|now]; unfold tableOp, cstep; try rewrite N; rewrite ?Hs.
  - destruct (A k) as [b Hb]. unfold ctLookup. cbn [t_buckets t_stats]. rewrite S. cbn [obind]. rewrite Hb. cbn [obind].
    unfold bucketOp. destruct (lookupBucket b now) as [[b1 ev] n]. destruct (search b1 k now) as [[b2 d]|];
      (eexists; eexists; eexists; eexists; split; [reflexivity|]; split; [reflexivity|]; rewrite ctOf_add; split; [reflexivity|];
       split; [apply counted_add|apply L]).
  - destruct (A k) as [b Hb]. unfold ctInsertWithTTL. destruct (d =? 0).
    { eexists; eexists; eexists; eexists; split; [reflexivity|]. split; [reflexivity|]. split; [reflexivity|]. split; [apply counted_nil|reflexivity]. }
    cbn [t_buckets t_stats]. rewrite S. cbn [obind]. rewrite Hb. cbn [obind].
    unfold bucketOp. destruct (lookupBucket b now) as [[b1 ev] n]. destruct (search b1 k now) as [[b2 d2]|].
    { eexists; eexists; eexists; eexists; split; [reflexivity|]. split; [reflexivity|]. rewrite ctOf_add. split; [reflexivity|]. split; [apply counted_add|apply L]. }
    destruct (c_data (b_main b1) =? 0); [|destruct al as [m|]];
      (eexists; eexists; eexists; eexists; split; [reflexivity|]; split; [reflexivity|]; rewrite ctOf_add; split; [reflexivity|];
       split; [apply counted_add|apply L]).
  - destruct (A k) as [b Hb]. unfold ctRemove. cbn [t_buckets t_stats]. rewrite S. cbn [obind]. rewrite Hb. cbn [obind].
    unfold bucketOp. destruct (lookupBucket b now) as [[b1 ev] n]. destruct (key_eqb k (c_key (b_main b1))).
    { eexists; eexists; eexists; eexists; split; [reflexivity|]. split; [reflexivity|]. rewrite ctOf_add. split; [reflexivity|]. split; [apply counted_add|apply L]. }
    destruct (remove_chain (b_chain b1) k) as [l ev'].
    eexists; eexists; eexists; eexists; split; [reflexivity|]. split; [reflexivity|]. rewrite ctOf_add. split; [reflexivity|]. split; [apply counted_add|apply L].
  - rewrite Z.ltb_irrefl. unfold ctStats. cbn [t_buckets t_stats].
    assert (F : firstn (Z.to_nat (zlen bs)) bs = bs) by (unfold zlen; rewrite Nat2Z.id; apply firstn_all).
    assert (K : skipn (Z.to_nat (zlen bs)) bs = []) by (unfold zlen; rewrite Nat2Z.id; apply skipn_all).
    rewrite F, K. destruct (gc_all bs now) as [[[l ev] n] a] eqn:E.
    eexists; eexists; eexists; eexists; split; [reflexivity|]. cbn [t_buckets t_stats]. rewrite app_nil_r. split; [reflexivity|].
    rewrite ctOf_add. split; [reflexivity|]. split; [apply counted_add|eapply gc_all_len; exact E].
Qed.

Lemma tableOp_size f bs o bs' f' v ev : tableOp f bs o = Ok (bs', f', v, ev) -> z_size f' = z_size f.
Proof.
  assert (K : forall i, (do b <- aget bs i; let '(b', s, v, ev) := bucketOp b (ctOf f) o in Ok (zupd bs i b', addStats f s ev, v, ev)) = Ok (bs', f', v, ev) ->
                z_size f' = z_size f).
  { intros i H. destruct (aget bs i) as [b| | |]; try discriminate. cbn [obind] in H. destruct (bucketOp b (ctOf f) o) as [[[b' s] v'] ev'].
    injection H as <- <- <- <-. reflexivity. }
  unfold tableOp. destruct o as [now k|now k ttl d al|now k|now]; try (destruct (z_size f =? 0); [discriminate|apply K]).
  - destruct (d =? 0); [intros H; injection H as <- <- <- <-; reflexivity|]. destruct (z_size f =? 0); [discriminate|apply K].
  - destruct (zlen bs <? z_size f); [discriminate|]. destruct (gc_all _ now) as [[[l e] n] a]. intros H. injection H as <- <- <- <-. reflexivity.
Qed.

(** The counters do not influence the table. *)
Lemma cstep_stats bs s o t v ev : cstep (mkCt bs s) o = Ok (t, v, ev) ->
  forall s', exists s1, cstep (mkCt bs s') o = Ok (mkCt (t_buckets t) s1, v, ev).
Proof.
  intros H s'. destruct o as [now k|now k ttl d al|now k|now]; unfold cstep in *.
  - unfold ctLookup in *. cbn [t_buckets t_stats] in *. destruct (slot bs k) as [i| | |]; try discriminate. cbn [obind] in *.
    destruct (aget bs i) as [b| | |]; try discriminate. cbn [obind] in *. destruct (lookupBucket b now) as [[b1 e] n].
    destruct (search b1 k now) as [[b2 d]|]; injection H as <- <- <-; eexists; reflexivity.
  - unfold ctInsertWithTTL in *. destruct (d =? 0); [injection H as <- <- <-; eexists; reflexivity|].
    cbn [t_buckets t_stats] in *. destruct (slot bs k) as [i| | |]; try discriminate. cbn [obind] in *.
    destruct (aget bs i) as [b| | |]; try discriminate. cbn [obind] in *. destruct (lookupBucket b now) as [[b1 e] n].
    destruct (search b1 k now) as [[b2 d2]|]; [injection H as <- <- <-; eexists; reflexivity|].
    destruct (c_data (b_main b1) =? 0); [|destruct al]; injection H as <- <- <-; eexists; reflexivity.
  - unfold ctRemove in *. cbn [t_buckets t_stats] in *. destruct (slot bs k) as [i| | |]; try discriminate. cbn [obind] in *.
    destruct (aget bs i) as [b| | |]; try discriminate. cbn [obind] in *. destruct (lookupBucket b now) as [[b1 e] n].
    destruct (key_eqb k (c_key (b_main b1))); [injection H as <- <- <-; eexists; reflexivity|].
    destruct (remove_chain (b_chain b1) k) as [l e']. injection H as <- <- <-. eexists; reflexivity.
  - unfold ctStats in *. cbn [t_buckets t_stats] in *. destruct (gc_all bs now) as [[[l e] n] a]. injection H as <- <- <-. eexists; reflexivity.
Qed.

Lemma ctOf_all s : exists f, ctOf f = s.
Proof. destruct s as [a b c d e]. exists (mkF 0 0 0 a b c d e 0 0 0 0 0 0 0 0). reflexivity. Qed.

(** ** Processes *)
Lemma put_eq {A} (f : chars -> A) n x : put f n x n = x.
Proof. unfold Stats_Model.put. rewrite streq_refl. reflexivity. Qed.
Lemma put_ne {A} (f : chars -> A) n m x : m <> n -> put f n x m = f m.
Proof. intros H. unfold Stats_Model.put. destruct (streq m n) eqn:E; auto. apply streq_eq in E. congruence. Qed.
Lemma putp_eq {A} (f : Z -> A) i x : putp f i x i = x.
Proof. unfold putp. rewrite Z.eqb_refl. reflexivity. Qed.
Lemma putp_ne {A} (f : Z -> A) i j x : j <> i -> putp f i x j = f j.
Proof. intros H. unfold putp. destruct (j =? i) eqn:E; auto. lia. Qed.

Definition sized (c : content) (cur : Z) : Prop := cur = -1 \/ exists f, c = Holds f /\ z_size f = cur.

Lemma hrun_cons h l r : hrun h (l :: r) = (fst (hrun (fst (hstep h l)) r), snd (hstep h l) ++ snd (hrun (fst (hstep h l)) r)).
Proof. cbn. destruct (hstep h l) as [h1 a]. cbn. destruct (hrun h1 r). reflexivity. Qed.
Lemma answers_app i a b : answers i (a ++ b) = answers i a ++ answers i b.
Proof. induction a as [|[[j o] v] r IH]; cbn; auto. destruct (j =? i); cbn; rewrite IH; auto. Qed.
Lemma size_after_cons n cur l r : size_after n cur (l :: r) = size_after n (size_after n cur [l]) r.
Proof. destruct l; reflexivity. Qed.

(** One step of something else keeps the process, and the object is as the
    last start says. *)
Lemma other_step i n bs h l cur : ho_proc h i = Some (mkProc n bs) -> sized (ho_obj h n) cur ->
  (forall o, l <> HOp i o) -> (forall m g, l <> HReady i m g) ->
  ho_proc (fst (hstep h l)) i = Some (mkProc n bs) /\ sized (ho_obj (fst (hstep h l)) n) (size_after n cur [l]) /\ answers i (snd (hstep h l)) = [].
Proof.
  intros P O H1 H2. destruct l as [m|m|j m g|j o]; cbn [hstep size_after].
  - cbn. split; [auto|]. split; [|reflexivity]. destruct (streq n m) eqn:E; [left; reflexivity|].
    rewrite put_ne; auto. intros ->. rewrite streq_refl in E. discriminate.
  - cbn. split; [auto|]. split; [|reflexivity]. destruct (streq n m) eqn:E.
    + apply streq_eq in E. subst m. rewrite put_eq. right. eexists. split; reflexivity.
    + rewrite put_ne; auto. intros ->. rewrite streq_refl in E. discriminate.
  - assert (j <> i) as D by (intros ->; eapply H2; reflexivity).
    destruct (streq n m) eqn:E; cbn [andb].
    + apply streq_eq in E. subst m. destruct (cur =? -1) eqn:C; cbn [negb].
      * destruct (ho_obj h n) eqn:Q; cbn; (split; [rewrite putp_ne; auto|]); (split; [left; lia|reflexivity]).
      * destruct O as [O|[f [O1 O2]]]; [lia|]. rewrite O1. cbn. split; [rewrite putp_ne; auto|]. split; [|reflexivity].
        rewrite put_eq. right. eexists. split; reflexivity.
    + assert (n <> m) as N by (intros ->; rewrite streq_refl in E; discriminate).
      destruct (ho_obj h m) eqn:Q; cbn; (split; [rewrite putp_ne; auto|]); (split; [|reflexivity]); auto. rewrite put_ne; auto.
  - assert (j <> i) as D by (intros ->; eapply H1; reflexivity).
    destruct (ho_proc h j) as [[m tab]|]; [|cbn; auto]. cbn [pr_ft pr_tab].
    assert (DI : (j =? i) = false) by lia.
    destruct (ho_obj h m) as [| |f] eqn:Q; try (cbn; rewrite DI; split; [rewrite putp_ne; auto|]; split; [exact O|reflexivity]).
    destruct (tableOp f tab o) as [[[[bs' f'] v] ev]| | |] eqn:T; cbn; rewrite DI; (split; [rewrite putp_ne; auto|]); (split; [|reflexivity]); auto.
    destruct (list_eq_dec Z.eq_dec n m) as [->|N]; [|rewrite put_ne; auto].
    rewrite put_eq. destruct O as [O|[f0 [O1 O2]]]; [left; auto|]. right. eexists. split; [reflexivity|].
    rewrite Q in O1. injection O1 as ->. rewrite (tableOp_size _ _ _ _ _ _ _ T). auto.
Qed.

Lemma undisturbed i n sz : 0 < sz -> forall ls h bs cur s,
  ho_proc h i = Some (mkProc n bs) -> zlen bs = sz -> sized (ho_obj h n) cur -> once i ls ->
  (forall pre o post, ls = pre ++ HOp i o :: post -> size_after n cur pre = sz) ->
  exists t vs ev, crun (mkCt bs s) (ops_of i ls) = Ok (t, vs, ev) /\ answers i (snd (hrun h ls)) = combine (ops_of i ls) (map Some vs).
Proof.
  intros Hsz. induction ls as [|l r IH]; intros h bs cur s P B O N S.
  { cbn. eexists; eexists; eexists. split; reflexivity. }
  rewrite hrun_cons. cbn [snd]. rewrite answers_app.
  assert (N' : once i r) by (intros m g X; eapply N; right; exact X).
  assert (D : (exists o, l = HOp i o) \/ forall o, l <> HOp i o).
  { destruct l as [m|m|j m g|j o]; try (right; discriminate). destruct (Z.eq_dec j i) as [->|]; [left; eauto|right; congruence]. }
  destruct D as [[o ->]|D].
  - pose proof (S [] o r eq_refl) as C. cbn in C. subst cur. destruct O as [O|[f [O1 O2]]]; [lia|].
    assert (z_size f = zlen bs) as Hz by lia. assert (0 < zlen bs) as Hb by lia.
    destruct (tableOp_cstep f bs o Hz Hb) as (t & v & ev & f' & C1 & C2 & C3 & C4 & C5).
    cbn [ops_of]. rewrite Z.eqb_refl. cbn [crun].
    destruct (cstep_stats _ _ _ _ _ _ C1 s) as [s1 C6]. rewrite C6. cbn [obind].
    assert (E : hstep h (HOp i o) = (mkHost (put (ho_obj h) n (Holds f')) (putp (ho_proc h) i (Some (mkProc n (t_buckets t)))), [(i, o, Some v)])).
    { cbn. rewrite P. cbn [pr_ft pr_tab]. rewrite O1, C2. reflexivity. }
    rewrite E. cbn [fst snd]. destruct (IH (mkHost (put (ho_obj h) n (Holds f')) (putp (ho_proc h) i (Some (mkProc n (t_buckets t))))) (t_buckets t) sz s1) as (t2 & vs & ev2 & R1 & R2).
    + cbn. rewrite putp_eq. reflexivity.
    + lia.
    + cbn. rewrite put_eq. right. exists f'. split; auto. destruct C4 as [C4 _]. lia.
    + auto.
    + intros pre o' post Q. subst r. apply (S (HOp i o :: pre) o' post). reflexivity.
    + rewrite R1. cbn [obind]. eexists; eexists; eexists. split; [reflexivity|]. cbn [answers]. rewrite Z.eqb_refl. cbn [combine map app]. rewrite R2. reflexivity.
  - assert (D2 : forall m g, l <> HReady i m g) by (intros m g ->; eapply N; left; reflexivity).
    destruct (other_step i n bs h l cur P O D D2) as (P' & O' & A').
    rewrite A'. cbn [app]. assert (E : ops_of i (l :: r) = ops_of i r).
    { destruct l as [m|m|j m g|j o]; auto. cbn. destruct (j =? i) eqn:J; auto. exfalso. apply (D o). f_equal. lia. }
    rewrite E. apply (IH (fst (hstep h l)) bs (size_after n cur [l]) s); auto.
    intros pre o post Q. subst r. rewrite <- size_after_cons. apply (S (l :: pre) o post). reflexivity.
Qed.

Lemma started_undisturbed h i n g ls f : 0 < g_hsize g -> ho_obj h n = Holds f -> once i ls ->
  (forall pre o post, ls = pre ++ HOp i o :: post -> size_after n (g_hsize g) pre = g_hsize g) ->
  alone (g_hsize g) (ops_of i ls) (answers i (snd (hrun h (HReady i n g :: ls)))).
Proof.
  intros Hg Hf N S. rewrite hrun_cons. cbn [snd]. rewrite answers_app.
  assert (E : hstep h (HReady i n g) = (mkHost (put (ho_obj h) n (Holds (firstStats g))) (putp (ho_proc h) i (Some (mkProc n (t_buckets (ctCreate (g_hsize g)))))), [])).
  { cbn. rewrite Hf. reflexivity. }
  rewrite E. cbn [fst snd answers app].
  destruct (undisturbed i n (g_hsize g) Hg ls (mkHost (put (ho_obj h) n (Holds (firstStats g))) (putp (ho_proc h) i (Some (mkProc n (t_buckets (ctCreate (g_hsize g)))))))
              (t_buckets (ctCreate (g_hsize g))) (g_hsize g) (t_stats (ctCreate (g_hsize g)))) as (t & vs & ev & R1 & R2); auto.
  - cbn. rewrite putp_eq. reflexivity.
  - cbn. rewrite zlen_repeat. lia.
  - right. cbn. rewrite put_eq. eexists. split; reflexivity.
  - exists t, vs, ev. auto.
Qed.
