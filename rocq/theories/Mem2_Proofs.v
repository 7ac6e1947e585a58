(** Proofs about the memory of sets of flows (C85). *)
From Coq Require Import String Permutation.
From Verif Require Import Base Lists Cstr_Model Util_Model Util_Proofs Rangeset_Model Rangeset_Spec
  Match_Model Flow_Model Flow_Spec Flow3_Proofs Mem_Model Mem_Spec Mem_Proofs.

Definition sblocks (s : mset) (n : Z) : list (Z * tag) := (s_self s, TSet) :: (s_arr s, TArr n) :: flat_map blocks (s_flows s).
Definition made (x : mflow) (a : fargs) : Prop := x_text x = a_name a /\ sound x /\ Permutation (map snd (blocks x)) (tags a).
Definition sinv (m : mem) (s : mset) (now : list fargs) (l : list (Z * tag)) : Prop :=
  (exists n, zlen (s_flows s) < n /\ own m (sblocks s n ++ l)) /\
  (exists now', Permutation now now' /\ Forall2 made (s_flows s) now') /\ NoDup (map x_text (s_flows s)).

(** ** Lists *)
Lemma filter_perm {A} (f : A -> bool) l l' : Permutation l l' -> Permutation (filter f l) (filter f l').
Proof.
  induction 1 as [|x l l' P IH|x y l|l1 l2 l3 P1 IH1 P2 IH2]; cbn; auto.
  - destruct (f x); auto.
  - destruct (f x), (f y); auto. apply perm_swap.
  - etransitivity; eauto.
Qed.
Lemma swap_some x l : forall old r, swap x l = Some (old, r) ->
  exists a b, l = a ++ old :: b /\ r = a ++ x :: b /\ x_text old = x_text x.
Proof.
  induction l as [|y l IH]; intros old r H; cbn [swap] in H; [discriminate|].
  destruct (streq (x_text y) (x_text x)) eqn:E.
  - injection H as <- <-. exists [], l. cbn. split; auto. split; auto. apply streq_eq. auto.
  - destruct (swap x l) as [[z r']|]; [|discriminate]. injection H as <- <-. destruct (IH _ _ eq_refl) as (a & b & -> & -> & T).
    exists (y :: a), b. auto.
Qed.
Lemma swap_none x l : swap x l = None -> ~ In (x_text x) (map x_text l).
Proof.
  induction l as [|y l IH]; cbn [swap map In]; intros H; [tauto|].
  destruct (streq (x_text y) (x_text x)) eqn:E; [discriminate|]. destruct (swap x l) as [[z r']|]; [discriminate|].
  intros [K|K]; [|exact (IH eq_refl K)]. rewrite K, streq_refl in E. discriminate.
Qed.
Lemma take_some n l : forall x r, take n l = Some (x, r) -> exists a b, l = a ++ x :: b /\ r = a ++ b /\ x_text x = n.
Proof.
  induction l as [|y l IH]; intros x r H; cbn [take] in H; [discriminate|].
  destruct (streq (x_text y) n) eqn:E.
  - injection H as <- <-. exists [], l. cbn. split; auto. split; auto. apply streq_eq. auto.
  - destruct (take n l) as [[z r']|]; [|discriminate]. injection H as <- <-. destruct (IH _ _ eq_refl) as (a & b & -> & -> & T).
    exists (y :: a), b. auto.
Qed.
Lemma take_none n l : take n l = None -> ~ In n (map x_text l).
Proof.
  induction l as [|y l IH]; cbn [take map In]; intros H; [tauto|].
  destruct (streq (x_text y) n) eqn:E; [discriminate|]. destruct (take n l) as [[z r']|]; [discriminate|].
  intros [K|K]; [|exact (IH eq_refl K)]. rewrite K, streq_refl in E. discriminate.
Qed.
Lemma others_id n l now : Forall2 made l now -> ~ In n (map x_text l) -> others n now = now.
Proof.
  induction 1 as [|x a l now (T & _) F IH]; cbn [others filter map In]; intros NI; auto.
  fold (others n now). rewrite <- T. destruct (streq (x_text x) n) eqn:E; [apply streq_eq in E; tauto|]. cbn. f_equal. apply IH. tauto.
Qed.
Lemma others_cut n a x b now : Forall2 made (a ++ x :: b) now -> x_text x = n -> NoDup (map x_text (a ++ x :: b)) ->
  exists na nx nb, now = na ++ nx :: nb /\ others n now = na ++ nb /\ Forall2 made a na /\ made x nx /\ Forall2 made b nb.
Proof.
  intros F T N. apply Forall2_app_inv_l in F. destruct F as (na & n2 & F1 & F2 & ->). inversion F2 as [|? nx ? nb M F3]; subst.
  exists na, nx, nb. split; auto. split; [|auto]. rewrite map_app in N. cbn [map] in N.
  apply NoDup_remove in N. destruct N as (_ & NI). rewrite in_app_iff in NI.
  unfold others. rewrite filter_app. cbn [filter]. destruct M as (TM & _). rewrite <- TM, streq_refl. cbn [negb].
  f_equal; eapply others_id; eauto.
Qed.
Lemma made_tags l now : Forall2 made l now -> Permutation (map snd (flat_map blocks l)) (flat_map tags now).
Proof.
  induction 1 as [|x a l now (_ & _ & P) F IH]; cbn [flat_map map]; auto. rewrite map_app. apply Permutation_app; auto.
Qed.
Lemma made_length l now : Forall2 made l now -> length l = length now.
Proof. induction 1; cbn; congruence. Qed.
Lemma made_sound l now : Forall2 made l now -> Forall sound l.
Proof. induction 1 as [|x a l now (_ & S & _) F IH]; constructor; auto. Qed.

(** ** Calls *)
Section Calls.
Variables (L : libc) (sort : list mflow -> list mflow).
Hypothesis Q : qsort_ok (sort_nodes L).
Hypothesis SP : permutes sort.

Lemma create_inv m l s m' : own m l -> flowSetCreate m = (s, m') -> sinv m' s [] l.
Proof.
  intros O. unfold flowSetCreate. destruct (malloc m TSet) as [p m1] eqn:E1. destruct (malloc m1 (TArr 1)) as [q m2] eqn:E2.
  intros [= <- <-]. destruct (own_alloc _ _ _ _ _ O E1) as (O1 & _). destruct (own_alloc _ _ _ _ _ O1 E2) as (O2 & _).
  split; [exists 1; cbn; split; [lia|]; eapply own_perm; [exact O2|apply perm_swap]|]. split; [exists []; split; constructor|constructor].
Qed.

Lemma define_inv m s now l a : sinv m s now l -> safe_op (Define a) -> exists m' s',
  Mem_Model.flowDefine L sort m s a = Ok (m', s', accepted L a) /\
  sinv m' s' (if accepted L a then a :: others (a_name a) now else now) l.
Proof.
  intros ((n & LN & O) & (now' & PN & F) & N) SA. unfold Mem_Model.flowDefine.
  destruct (MAX_NAME <=? zlen (a_name a)) eqn:EN.
  { assert (accepted L a = false) as -> by (unfold accepted, makeFlow; rewrite EN; auto).
    exists m, s. split; auto. split; eauto. }
  destruct (malloc m TFlow) as [f m1] eqn:E1. destruct (own_alloc _ _ _ _ _ O E1) as (O1 & PF).
  set (x0 := mkMF f 0 [] (a_ref a) (a_udpencap a) 0 None None 0 0 None).
  destruct (stages_ok L a m1 x0 (sblocks s n ++ l)) as (m2 & x & -> & O2 & SX & T); auto; try (split; cbn; auto); try (split; auto).
  cbn [obind]. destruct (accepted L a) eqn:AC.
  2:{ destruct (flow_free _ _ _ O2 SX) as (m3 & -> & O3). cbn [obind]. exists m3, s. split; auto. split; eauto. }
  destruct (T eq_refl) as (TX & TP). clear T.
  assert (MX : made x a).
  { split; auto. split; auto. rewrite TP. unfold x0, blocks. cbn. symmetry. apply Permutation_cons_append. }
  rewrite (own_touch _ _ (s_self s) TSet O2) by (rewrite in_app_iff; cbn; auto). cbn [obind].
  rewrite (own_touch _ _ (s_arr s) (TArr n) O2) by (rewrite in_app_iff; cbn; auto). cbn [obind].
  destruct (swap x (s_flows s)) as [[old r]|] eqn:ES.
  - destruct (swap_some _ _ _ _ ES) as (u & w & EF & -> & TO).
    assert (O3 : own m2 (blocks old ++ (s_self s, TSet) :: (s_arr s, TArr n) :: flat_map blocks (u ++ x :: w) ++ l)).
    { eapply own_perm; [exact O2|]. unfold sblocks. rewrite EF, !flat_map_app. cbn [flat_map app]. rewrite <- !app_assoc.
      rewrite Permutation_app_comm. cbn [app]. rewrite <- !app_assoc.
      transitivity ((s_self s, TSet) :: (s_arr s, TArr n) :: blocks old ++ flat_map blocks u ++ blocks x ++ flat_map blocks w ++ l).
      - apply perm_skip, perm_skip. rewrite (Permutation_app_swap_app (flat_map blocks u) (blocks old)). apply Permutation_app_head, Permutation_app_head.
        rewrite (app_assoc (flat_map blocks w) l), (Permutation_app_comm _ (blocks x)). rewrite <- ?app_assoc. reflexivity.
      - apply (Permutation_app_swap_app [(s_self s, TSet); (s_arr s, TArr n)] (blocks old)). }
    rewrite EF in F, N. destruct (others_cut (a_name a) u old w now' F ltac:(congruence) N) as (na & nx & nb & -> & OC & F1 & MO & F2).
    destruct (flow_free _ _ _ O3 ltac:(apply MO)) as (m3 & -> & O4). cbn [obind].
    eexists _, _. split; [reflexivity|]. split; [|split]; cbn [s_flows s_self s_arr].
    + exists n. split.
      * unfold zlen in *. rewrite <- (Permutation_length (SP _)). rewrite EF in LN. rewrite app_length in *. cbn [length] in *. lia.
      * eapply own_perm; [exact O4|]. unfold sblocks. cbn [s_flows s_self s_arr app]. apply perm_skip, perm_skip.
        apply Permutation_app_tail. apply Permutation_flat_map. apply SP.
    + destruct (Permutation_Forall2 (SP (u ++ x :: w)) (Forall2_app F1 (Forall2_cons x a MX F2))) as (q & PQ & FQ).
      exists q. split; [|exact FQ]. rewrite <- PQ. transitivity (a :: na ++ nb); [|apply Permutation_middle].
      apply perm_skip. rewrite <- OC. apply filter_perm. auto.
    + eapply Permutation_NoDup; [apply Permutation_map, SP|]. rewrite map_app in *. cbn [map] in *. rewrite <- TO. exact N.
  - pose proof (swap_none _ _ ES) as NI. unfold put_at, realloc.
    destruct (own_live _ _ (s_arr s) (TArr n) O2 ltac:(rewrite in_app_iff; cbn; auto)) as (EA & NA). rewrite EA.
    pose proof (zlen_nonneg _ (s_flows s)) as ZN.
    replace ((0 <=? zlen (s_flows s) + 1 - 1) && (zlen (s_flows s) + 1 - 1 <? n)) with true by lia. cbn [obind].
    assert (O3 : own m2 ((s_arr s, TArr n) :: (s_self s, TSet) :: flat_map blocks (s_flows s ++ [x]) ++ l)).
    { eapply own_perm; [exact O2|]. unfold sblocks. rewrite flat_map_app. cbn [flat_map app]. rewrite app_nil_r, <- !app_assoc.
      rewrite Permutation_app_comm. cbn [app]. rewrite <- !app_assoc. rewrite perm_swap. apply perm_skip, perm_skip.
      apply Permutation_app_head. apply Permutation_app_comm. }
    destruct (own_free1 _ _ _ _ O3) as (m3 & -> & O4). cbn [obind].
    destruct (malloc m3 (TArr (zlen (s_flows s) + 1 + 1))) as [arr m4] eqn:E4. destruct (own_alloc _ _ _ _ _ O4 E4) as (O5 & PA).
    destruct (own_live _ _ arr (TArr (zlen (s_flows s) + 1 + 1)) O5 ltac:(cbn; auto)) as (EB & _). rewrite EB.
    replace ((0 <=? zlen (s_flows s) + 1) && (zlen (s_flows s) + 1 <? zlen (s_flows s) + 1 + 1)) with true by lia. cbn [obind].
    eexists _, _. split; [reflexivity|]. split; [|split]; cbn [s_flows s_self s_arr].
    + exists (zlen (s_flows s) + 1 + 1). split.
      * unfold zlen. rewrite <- (Permutation_length (SP _)), app_length. cbn [length]. lia.
      * eapply own_perm; [exact O5|]. unfold sblocks. cbn [s_flows s_self s_arr app]. rewrite perm_swap. apply perm_skip, perm_skip.
        apply Permutation_app_tail. apply Permutation_flat_map. apply SP.
    + destruct (Permutation_Forall2 (SP (s_flows s ++ [x])) (Forall2_app F (Forall2_cons x a MX (Forall2_nil _)))) as (q & PQ & FQ).
      exists q. split; [|exact FQ]. rewrite <- PQ. rewrite <- Permutation_cons_append. apply perm_skip.
      rewrite <- (others_id (a_name a) _ now' F) by (rewrite <- TX; auto). apply filter_perm. auto.
    + eapply Permutation_NoDup; [apply Permutation_map, SP|]. rewrite map_app. cbn [map].
      eapply Permutation_NoDup; [apply Permutation_cons_append|]. constructor; auto.
Qed.

Lemma delete_inv m s now l a : sinv m s now l -> exists m' s',
  Mem_Model.flowDelete m s a = Ok (m', s') /\ sinv m' s' (others a now) l.
Proof.
  intros ((n & LN & O) & (now' & PN & F) & N). unfold Mem_Model.flowDelete.
  rewrite (own_touch _ _ (s_self s) TSet O) by (cbn; auto). cbn [obind].
  rewrite (own_touch _ _ (s_arr s) (TArr n) O) by (cbn; auto). cbn [obind].
  destruct (take a (s_flows s)) as [[x r]|] eqn:ET.
  - destruct (take_some _ _ _ _ ET) as (u & w & EF & -> & TO).
    assert (O3 : own m (blocks x ++ (s_self s, TSet) :: (s_arr s, TArr n) :: flat_map blocks (u ++ w) ++ l)).
    { eapply own_perm; [exact O|]. unfold sblocks. rewrite EF, !flat_map_app. cbn [flat_map app]. rewrite <- !app_assoc.
      transitivity ((s_self s, TSet) :: (s_arr s, TArr n) :: blocks x ++ flat_map blocks u ++ flat_map blocks w ++ l).
      - apply perm_skip, perm_skip. apply Permutation_app_swap_app.
      - apply (Permutation_app_swap_app [(s_self s, TSet); (s_arr s, TArr n)] (blocks x)). }
    rewrite EF in F, N. destruct (others_cut a u x w now' F TO N) as (na & nx & nb & -> & OC & F1 & MO & F2).
    destruct (flow_free _ _ _ O3 ltac:(apply MO)) as (m3 & -> & O4). cbn [obind]. unfold put_at.
    destruct (own_live _ _ (s_arr s) (TArr n) O4 ltac:(cbn; auto)) as (EA & NA). rewrite EA.
    assert (LN2 : zlen (u ++ w) < n).
    { unfold zlen in *. rewrite EF in LN. rewrite app_length in *. cbn [length] in *. lia. }
    pose proof (zlen_nonneg _ (u ++ w)). replace ((0 <=? zlen (u ++ w)) && (zlen (u ++ w) <? n)) with true by lia. cbn [obind].
    eexists _, _. split; [reflexivity|]. split; [|split]; cbn [s_flows s_self s_arr].
    + exists n. split; auto.
    + exists (na ++ nb). split; [|apply Forall2_app; auto]. rewrite <- OC. apply filter_perm. auto.
    + rewrite map_app in *. cbn [map] in N. apply NoDup_remove in N. tauto.
  - pose proof (take_none _ _ ET) as NI. exists m, s. split; auto. split; eauto. split; auto. exists now'. split; auto.
    rewrite <- (others_id a _ now' F NI). apply filter_perm. auto.
Qed.

Lemma each_ok m l ps : own m l -> (forall p, In p ps -> p = 0 \/ exists t, In (p, t) l) -> each m ps = Ok tt.
Proof.
  induction ps as [|p ps IH]; intros O H; cbn [each]; auto.
  assert (touch m p = Ok tt) as ->.
  { destruct (H p ltac:(cbn; auto)) as [->|(t & K)]; [reflexivity|]. eapply own_touch; eauto. }
  cbn [obind]. apply IH; auto. intros q K. apply H. cbn; auto.
Qed.
Lemma blk_in p t : p = 0 \/ In (p, t) (blk p t).
Proof. unfold blk. destruct (Z.eqb_spec p 0); cbn; auto. Qed.
Lemma parts_in x p : In p (parts x) -> p = 0 \/ exists t, In (p, t) (blocks x).
Proof.
  unfold parts, blocks. rewrite !in_app_iff. intros H.
  assert (K : forall q t, p = q -> (In (p, t) (blk q t) -> exists t0, In (p, t0) (blocks x)) -> p = 0 \/ exists t0, In (p, t0) (blocks x)).
  { intros q t -> G. destruct (blk_in q t); auto. }
  fold (blocks x). destruct H as [H|[H|[H|H]]].
  - cbn [In] in H. destruct H as [H|[H|[H|[H|[H|[]]]]]]; symmetry in H.
    + right. exists TFlow. unfold blocks. rewrite !in_app_iff. cbn. rewrite H. tauto.
    + apply (K _ TName H). intros G. exists TName. unfold blocks. rewrite !in_app_iff. tauto.
    + apply (K _ TProto H). intros G. exists TProto. unfold blocks. rewrite !in_app_iff. tauto.
    + apply (K _ TCidrs H). intros G. exists TCidrs. unfold blocks. rewrite !in_app_iff. tauto.
    + apply (K _ TCidrs H). intros G. exists TCidrs. unfold blocks. rewrite !in_app_iff. tauto.
  - destruct (x_dports x) as [[q t]|] eqn:E; [|destruct H]. cbn in H. destruct H as [<-|[]]. right. exists TPorts. unfold blocks.
    rewrite !in_app_iff, E. cbn. tauto.
  - destruct (x_sports x) as [[q t]|] eqn:E; [|destruct H]. cbn in H. destruct H as [<-|[]]. right. exists TPorts. unfold blocks.
    rewrite !in_app_iff, E. cbn. tauto.
  - destruct (x_match x) as [[q i]|] eqn:E; [|destruct H]. cbn in H. destruct H as [<-|[<-|[]]].
    + right. exists TMatch. unfold blocks. rewrite !in_app_iff, E. cbn [mblk]. rewrite in_app_iff. cbn. tauto.
    + destruct (blk_in i TItems) as [->|G]; auto. right. exists TItems. unfold blocks. rewrite !in_app_iff, E. cbn [mblk]. rewrite in_app_iff. tauto.
Qed.
Lemma look_inv m s now l : sinv m s now l -> look m s = Ok tt.
Proof.
  intros ((n & LN & O) & _). unfold look. eapply each_ok; [exact O|]. intros p [<-|[<-|K]]; [right; eexists; cbn; eauto..|].
  apply in_flat_map in K. destruct K as (x & X & K). apply parts_in in K. destruct K as [->|(t & K)]; auto. right. exists t.
  unfold sblocks. rewrite in_app_iff. left. right. right. apply in_flat_map. eauto.
Qed.

Lemma step_inv m s now l o : sinv m s now l -> safe_call o -> exists m' s', mstep L sort m s o = Ok (m', s') /\ sinv m' s' (effect L now [o]) l.
Proof.
  intros I S. destruct o as [a|a|]; cbn [mstep effect].
  - destruct (define_inv _ _ _ _ a I S) as (m' & s' & -> & I'). cbn [obind]. eauto.
  - apply delete_inv. auto.
  - rewrite (look_inv _ _ _ _ I). cbn [obind]. eauto.
Qed.
Lemma effect_cons now o r : effect L now (o :: r) = effect L (effect L now [o]) r.
Proof. destruct o; reflexivity. Qed.
Lemma run_inv ops : forall m s now l, sinv m s now l -> Forall safe_call ops -> exists m' s', mrun L sort m s ops = Ok (m', s') /\ sinv m' s' (effect L now ops) l.
Proof.
  induction ops as [|o ops IH]; intros m s now l I S; cbn [mrun]; [eauto|].
  apply Forall_cons_iff in S. destruct S as (S1 & S2). destruct (step_inv _ _ _ _ _ I S1) as (m1 & s1 & -> & I1). cbn [obind].
  rewrite effect_cons. apply IH; auto.
Qed.

Lemma free_all fs : forall m l, own m (flat_map blocks fs ++ l) -> Forall sound fs -> exists m', freeAll m fs = Ok m' /\ own m' l.
Proof.
  induction fs as [|x fs IH]; intros m l O S; cbn [freeAll]; [eauto|]. apply Forall_cons_iff in S. destruct S as (S1 & S2).
  cbn [flat_map] in O. rewrite <- app_assoc in O. destruct (flow_free _ _ _ O S1) as (m1 & -> & O1). cbn [obind]. apply IH; auto.
Qed.
Lemma destroy_set m s now l : sinv m s now l -> exists m', flowSetDelete m s = Ok m' /\ own m' l.
Proof.
  intros ((n & LN & O) & (now' & _ & F) & _). unfold flowSetDelete.
  rewrite (own_touch _ _ (s_self s) TSet O) by (cbn; auto). cbn [obind].
  rewrite (own_touch _ _ (s_arr s) (TArr n) O) by (cbn; auto). cbn [obind].
  assert (O1 : own m (flat_map blocks (s_flows s) ++ (s_arr s, TArr n) :: (s_self s, TSet) :: l)).
  { eapply own_perm; [exact O|]. unfold sblocks. cbn [app]. rewrite perm_swap.
    apply (Permutation_app_swap_app [(s_arr s, TArr n); (s_self s, TSet)] (flat_map blocks (s_flows s)) l). }
  destruct (free_all _ _ _ O1 (made_sound _ _ F)) as (m1 & -> & O2). cbn [obind].
  destruct (own_free1 _ _ _ _ O2) as (m2 & -> & O3). cbn [obind]. destruct (own_free1 _ _ _ _ O3) as (m3 & -> & O4). eauto.
Qed.
End Calls.

Lemma sinv_tags m s now l : sinv m s now l -> exists n, zlen now < n /\
  held m (sblocks s n ++ l) /\ clean m /\ Permutation (map snd (sblocks s n)) (TSet :: TArr n :: flat_map tags now).
Proof.
  intros ((n & LN & O) & (now' & PN & F) & _). exists n. split.
  { unfold zlen in *. rewrite (Permutation_length PN). rewrite <- (made_length _ _ F). auto. }
  destruct O as (H & _ & _ & C). split; auto. split; auto. unfold sblocks. cbn [map snd]. apply perm_skip, perm_skip.
  rewrite (made_tags _ _ F). apply Permutation_flat_map. symmetry. auto.
Qed.

Lemma flows_memory L sort ops : libc_ok L -> permutes sort -> Forall safe_call ops ->
  exists m s, (let (s0, m0) := flowSetCreate mem0 in mrun L sort m0 s0 ops) = Ok (m, s) /\
    (exists l, held m l /\ set_tags (map snd l) (effect L [] ops)) /\ clean m /\
    exists m', flowSetDelete m s = Ok m' /\ nothing m'.
Proof.
  intros (_ & Q & _) SP SF. destruct (flowSetCreate mem0) as [s0 m0] eqn:E0.
  pose proof (create_inv _ _ _ _ own0 E0) as I0. destruct (run_inv L sort Q SP ops _ _ _ _ I0 SF) as (m & s & E & I).
  exists m, s. split; auto. destruct (sinv_tags _ _ _ _ I) as (n & LN & H & C & P). rewrite app_nil_r in H.
  split; [exists (sblocks s n); split; auto; exists n; auto|]. split; auto.
  destruct (destroy_set _ _ _ _ I) as (m' & -> & ((_ & H') & _ & _ & C')). exists m'. split; auto. split; auto.
  intros p. destruct (m_live m' p) as [t|] eqn:EL; auto. apply H' in EL. destruct EL.
Qed.
