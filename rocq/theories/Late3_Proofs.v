(** As long as the entry is in the table the second read gets it (C92). *)
From Coq Require Import Permutation.
From Verif Require Import Base Lists IpKey_Model Conntrack_Model Conntrack_Spec Conntrack_Proofs Conntrack2_Proofs Frag_Model Frag_Spec Frag_Proofs Frag2_Proofs FragEnd_Proofs Late_Model Late_Spec Late_Proofs.

(** ** Where an object is *)
Definition bat (b : bucket) (x : cell) (d : Z) : Prop :=
  match x with Main => c_data (b_main b) = d | Over m => exists e, In e (b_chain b) /\ c_mem e = m /\ c_data e = d end.
Definition at_ (t : ct) (i : Z) (x : cell) (d : Z) : Prop := exists b, znth (t_buckets t) i = Some b /\ bat b x d.

Lemma bat_in b x d : bat b x d -> d <> 0 -> In d (bucket_data b).
Proof.
  intros H N. rewrite bucket_data_eq. unfold bents. destruct x as [|m]; cbn [bat] in H.
  - apply in_map_iff. exists (b_main b). split; [auto|]. apply filter_In. split; [left; auto|]. unfold occ. rewrite H. destruct (Z.eqb_spec d 0); [contradiction|reflexivity].
  - destruct H as (e & I & _ & D). apply in_map_iff. exists e. split; [auto|]. apply filter_In. split; [right; auto|]. unfold occ. rewrite D. destruct (Z.eqb_spec d 0); [contradiction|reflexivity].
Qed.
Lemma in_bat b d : In d (bucket_data b) -> d <> 0 /\ exists x, bat b x d.
Proof.
  intros H. rewrite bucket_data_eq in H. apply in_map_iff in H. destruct H as (e & D & I). unfold bents in I. apply filter_In in I. destruct I as [I O].
  unfold occ in O. rewrite D in O. split; [destruct (Z.eqb_spec d 0); [discriminate|auto]|]. destruct I as [<-|I]; [exists Main; auto|exists (Over (c_mem e)), e; auto].
Qed.
Lemma nodup_map_inj {A B} (f : A -> B) l a b : NoDup (map f l) -> In a l -> In b l -> f a = f b -> a = b.
Proof.
  induction l as [|y l IH]; cbn [map]; intros N Ia Ib E; [destruct Ia|]. inversion N as [|? ? N1 N2]; subst.
  destruct Ia as [<-|Ia], Ib as [<-|Ib]; auto; exfalso; apply N1; [rewrite E|rewrite <- E]; apply in_map; auto.
Qed.
Lemma bat_one b x x' d : NoDup (bucket_data b) -> d <> 0 -> bat b x d -> bat b x' d -> x = x'.
Proof.
  intros N Z H H'. rewrite bucket_data_eq in N. unfold bents in N.
  assert (O : forall e, c_data e = d -> occ e = true) by (intros e E; unfold occ; rewrite E; destruct (Z.eqb_spec d 0); [contradiction|reflexivity]).
  assert (M : forall e, In e (b_chain b) -> c_data e = d -> c_data (b_main b) = d -> False).
  { intros e I E1 E2. cbn [filter] in N. rewrite (O _ E2) in N. cbn [map] in N. apply NoDup_cons_iff in N. destruct N as [N1 _]. apply N1. rewrite E2, <- E1. apply in_map. apply filter_In. auto. }
  destruct x as [|m], x' as [|m']; cbn [bat] in H, H'; auto.
  - destruct H' as (e & I & _ & E). exfalso. eapply M; eauto.
  - destruct H as (e & I & _ & E). exfalso. eapply M; eauto.
  - destruct H as (e & I & <- & E), H' as (e' & I' & <- & E'). f_equal. f_equal. eapply (nodup_map_inj c_data); [exact N| | |congruence]; apply filter_In; split; auto; right; auto.
Qed.
Lemma at_in t i x d : at_ t i x d -> d <> 0 -> In d (stored_data t).
Proof. intros (b & Z & B) N. unfold stored_data. apply in_flat_map. exists b. split; [eapply znth_In; eauto|eapply bat_in; eauto]. Qed.
Lemma in_at t d : In d (stored_data t) -> d <> 0 /\ exists i x, at_ t i x d.
Proof.
  intros H. unfold stored_data in H. apply in_flat_map in H. destruct H as (b & I & D). destruct (in_bat _ _ D) as (N & x & B). split; [auto|].
  apply In_znth in I. destruct I as [i Hi]. exists i, x, b. auto.
Qed.
Lemma at_one t i i' x x' d : NoDup (stored_data t) -> d <> 0 -> at_ t i x d -> at_ t i' x' d -> i = i' /\ x = x'.
Proof.
  intros N D (b & Z & B) (b' & Z' & B'). unfold stored_data in N.
  assert (P := flat_upd _ _ bucket_data (t_buckets t) i b (mkBucket (mkCent [] 0 0 0 0) []) [] (bucket_data b) Z ltac:(rewrite app_nil_r; reflexivity)).
  rewrite app_nil_r in P. pose proof (Permutation_NoDup P N) as N2. destruct (Z.eq_dec i i') as [->|NE].
  - split; [auto|]. rewrite Z in Z'. injection Z' as <-. eapply bat_one; eauto. clear -N2. induction (flat_map _ _) as [|y l IH]; [exact N2|]. apply IH. inversion N2; auto.
  - exfalso. assert (I1 : In d (bucket_data b)) by (eapply bat_in; eauto).
    assert (I2 : In d (flat_map bucket_data (zupd (t_buckets t) i (mkBucket (mkCent [] 0 0 0 0) [])))).
    { apply in_flat_map. exists b'. split; [|eapply bat_in; eauto]. apply (znth_In _ _ i'). rewrite znth_zupd_neq by auto. exact Z'. }
    clear -N2 I1 I2. induction (flat_map _ _) as [|y l IH]; [destruct I2|]. cbn [app] in N2. inversion N2 as [|? ? M1 M2]; subst. destruct I2 as [->|I2]; [apply M1; apply in_or_app; auto|auto].
Qed.

(** ** Operations move no object. *)
Definition sub (b b' : bucket) : Prop := forall x d, d <> 0 -> bat b' x d -> bat b x d.
Lemma sub_trans a b c : sub a b -> sub b c -> sub a c.
Proof. intros H K x d N B. auto. Qed.
Lemma gc_chain_in now : forall l l' ev n, gc_chain l now = (l', ev, n) -> incl l' l.
Proof.
  induction l as [|e l IH]; intros l' ev n H; cbn [gc_chain] in H; [injection H as <- _ _; intros y I; exact I|].
  destruct (gc_chain l now) as [[l1 ev1] n1]. specialize (IH _ _ _ eq_refl). destruct (stale e now); injection H as <- _ _; intros y I; [right; auto|destruct I as [->|I]; [left; auto|right; auto]].
Qed.
Lemma gc_main_data m now m' ev n : gc_main m now = (m', ev, n) -> c_data m' = 0 \/ m' = m.
Proof. unfold gc_main. destruct (_ && _); intros H; injection H as <- _ _; [left; reflexivity|right; reflexivity]. Qed.
Lemma main_sub b m l : c_data m = 0 \/ m = b_main b -> incl l (b_chain b) -> sub b (mkBucket m l).
Proof. intros M I [|x] d N B; cbn [bat b_main b_chain] in *; [destruct M as [M| ->]; [congruence|exact B]|]. destruct B as (e & Ie & B). exists e. auto. Qed.
Lemma bucketGC_sub b now b' ev n a : bucketGC b now = (b', ev, n, a) -> sub b b'.
Proof.
  unfold bucketGC. destruct (gc_main (b_main b) now) as [[m ev1] n1] eqn:E1. destruct (gc_chain (b_chain b) now) as [[l ev2] n2] eqn:E2. intros H. injection H as <- _ _ _.
  apply main_sub; [eapply gc_main_data; eauto|eapply gc_chain_in; eauto].
Qed.
Lemma lookupBucket_sub b now b' ev n : lookupBucket b now = (b', ev, n) -> sub b b'.
Proof.
  unfold lookupBucket. destruct (gc_main (b_main b) now) as [[m ev1] n1] eqn:E1. assert (S1 : sub b (mkBucket m (b_chain b))) by (apply main_sub; [eapply gc_main_data; eauto|intros y I; exact I]).
  destruct (b_chain b) as [|e l] eqn:EC; [intros H; injection H as <- _ _; exact S1|]. destruct (bucketGC _ now) as [[[b2 ev2] n2] a] eqn:E2. intros H. injection H as <- _ _.
  eapply sub_trans; [exact S1|eapply bucketGC_sub; eauto].
Qed.
Definition md (e : cent) := (c_mem e, c_data e).
Lemma touch_md k now : forall l l' d, touch l k now = Some (l', d) -> map md l' = map md l.
Proof.
  induction l as [|e l IH]; intros l' d H; cbn [touch] in H; [discriminate|]. destruct (hit k e); [injection H as <- _; reflexivity|].
  destruct (touch l k now) as [[r d']|]; [|discriminate]. injection H as <- _. cbn [map]. f_equal. eauto.
Qed.
Lemma search_sub b k now b' d : search b k now = Some (b', d) -> sub b b'.
Proof.
  unfold search. destruct (touch _ k now) as [[[|m l] d']|] eqn:E; try discriminate. intros H. injection H as <- <-. apply touch_md in E. cbn [map] in E. injection E as E1 E2 E3.
  intros [|x] v N B; cbn [bat b_main b_chain] in *; [congruence|]. destruct B as (e & I & M & D).
  assert (I2 : In (md e) (map md (b_chain b))) by (rewrite <- E3; apply in_map; exact I). apply in_map_iff in I2. destruct I2 as (e2 & Q & I2). injection Q as Q1 Q2. exists e2. repeat split; [auto|congruence|congruence].
Qed.
Lemma remove_chain_in k : forall l l' ev, remove_chain l k = (l', ev) -> incl l' l.
Proof.
  induction l as [|e l IH]; intros l' ev H; cbn [remove_chain] in H; [injection H as <- _; intros y I; exact I|].
  destruct (key_eqb k (c_key e)); [injection H as <- _; intros y I; right; exact I|]. destruct (remove_chain l k) as [r ev1]. injection H as <- _. specialize (IH _ _ eq_refl).
  intros y [->|I]; [left; auto|right; auto].
Qed.
Lemma upd_at t j b b' s (I : Z -> Prop) : znth (t_buckets t) j = Some b -> (forall x d, d <> 0 -> bat b' x d -> bat b x d \/ I d) ->
  forall i x d, at_ (mkCt (zupd (t_buckets t) j b') s) i x d -> d <> 0 -> at_ t i x d \/ I d.
Proof.
  intros Z S i x d (b1 & Z1 & B1) N. cbn [t_buckets] in Z1. destruct (upd_cases _ _ _ _ _ Z1) as [(-> & ->)|(NE & Z2)]; [|left; exists b1; auto].
  destruct (S x d N B1) as [B|B]; [left; exists b; auto|right; auto].
Qed.
Lemma cstep_at t o t' v ev : cstep t o = Ok (t', v, ev) -> (forall now, o <> OStats now) ->
  forall i x d, at_ t' i x d -> d <> 0 -> at_ t i x d \/ In d (ins1 o v).
Proof.
  intros H NS. destruct o as [now k|now k ttl d0 al|now k|now]; cbn [cstep] in H; [| | |exfalso; eapply NS; reflexivity].
  - unfold ctLookup in H. destruct (slot (t_buckets t) k) as [i| | |]; try discriminate. cbn [obind] in H.
    destruct (aget (t_buckets t) i) as [b| | |] eqn:Eb; try discriminate. apply aget_ok in Eb. cbn [obind] in H.
    destruct (lookupBucket b now) as [[b1 ev1] n] eqn:HL. apply lookupBucket_sub in HL.
    destruct (search b1 k now) as [[b' d]|] eqn:HS; injection H as <- <- <-.
    + apply (upd_at t i b); [exact Eb|]. intros x y N B. left. eapply sub_trans; [exact HL|eapply search_sub; eauto|auto|auto].
    + apply (upd_at t i b); [exact Eb|]. intros x y N B. left. auto.
  - unfold ctInsertWithTTL in H. destruct (d0 =? 0) eqn:Ed; [injection H as <- <- <-; auto|].
    destruct (slot (t_buckets t) k) as [i| | |]; try discriminate. cbn [obind] in H.
    destruct (aget (t_buckets t) i) as [b| | |] eqn:Eb; try discriminate. apply aget_ok in Eb. cbn [obind] in H.
    destruct (lookupBucket b now) as [[b1 ev1] n] eqn:HL. apply lookupBucket_sub in HL.
    destruct (search b1 k now) as [[b' d']|] eqn:HS; [injection H as <- <- <-|].
    + apply (upd_at t i b); [exact Eb|]. intros x y N B. left. eapply sub_trans; [exact HL|eapply search_sub; eauto|auto|auto].
    + destruct (c_data (b_main b1) =? 0) eqn:Em; [injection H as <- <- <-|destruct al as [mem|]; injection H as <- <- <-].
      * apply (upd_at t i b); [exact Eb|]. intros [|x] y N B; cbn [bat b_main b_chain c_data] in B; [right; left; exact B|]. left. apply HL; auto.
      * apply (upd_at t i b); [exact Eb|]. intros [|x] y N B; cbn [bat b_main b_chain c_data] in B; [left; apply HL; auto|]. destruct B as (e & [<-|I] & M & D); [right; left; exact D|].
        left. apply HL; auto. exists e. auto.
      * apply (upd_at t i b); [exact Eb|]. intros x y N B. left. auto.
  - unfold ctRemove in H. destruct (slot (t_buckets t) k) as [i| | |]; try discriminate. cbn [obind] in H.
    destruct (aget (t_buckets t) i) as [b| | |] eqn:Eb; try discriminate. apply aget_ok in Eb. cbn [obind] in H.
    destruct (lookupBucket b now) as [[b1 ev1] n] eqn:HL. apply lookupBucket_sub in HL.
    destruct (key_eqb k (c_key (b_main b1))) eqn:Ek; [|destruct (remove_chain (b_chain b1) k) as [l ev'] eqn:Er; apply remove_chain_in in Er]; cbn [obind] in H; injection H as <- <- <-;
      (apply (upd_at t i b); [exact Eb|]); intros x y N B; left; apply HL; auto.
    + revert x y N B. apply main_sub; [left; reflexivity|intros z I; exact I].
    + revert x y N B. apply main_sub; [right; reflexivity|exact Er].
Qed.
(** The cell that a look-up reads again holds what it found. *)
Lemma touch_bat b k now b' d x : search b k now = Some (b', d) -> cell_of b' k = Some x -> bat b' x d.
Proof.
  unfold search. destruct (touch _ k now) as [[[|m l] d']|] eqn:E; try discriminate. intros H. injection H as <- <-. apply touch_cell in E. destruct E as (l1 & e & l2 & EL & D & H & F).
  unfold cell_of. cbn [b_main b_chain]. destruct l1 as [|y l1]; cbn [app] in EL; injection EL as -> ->.
  - rewrite H. intros C. injection C as <-. exact D.
  - inversion F as [|? ? F1 F2]; subst. rewrite F1. intros C. assert (C2 : chain_cell (l1 ++ e :: l2) k = Some (Over (c_mem e))).
    { clear -F2 H. induction l1 as [|z l1 IH]; cbn [app chain_cell]; [rewrite H; reflexivity|]. inversion F2; subst. rewrite H2. auto. }
    rewrite C2 in C. injection C as <-. exists e. split; [apply in_or_app; right; left; auto|auto].
Qed.
Lemma lookup_at t now k t' v ev i b x : ctLookup t now k = Ok (t', v, ev) -> v <> 0 -> slot (t_buckets t') k = Ok i -> znth (t_buckets t') i = Some b -> cell_of b k = Some x -> bat b x v.
Proof.
  unfold ctLookup. intros H N. destruct (slot (t_buckets t) k) as [j| | |] eqn:Es; try discriminate. cbn [obind] in H.
  destruct (aget (t_buckets t) j) as [b0| | |] eqn:Eb; try discriminate. apply aget_ok in Eb. cbn [obind] in H. destruct (lookupBucket b0 now) as [[b1 ev1] n].
  destruct (search b1 k now) as [[b' d]|] eqn:HS; injection H as <- <- <-; [|contradiction]. cbn [t_buckets]. intros S Zb C.
  assert (j = i). { unfold slot in Es, S. unfold zlen in Es, S. rewrite zupd_length in S. destruct (Z.of_nat _ =? 0); congruence. } subst j.
  rewrite znth_zupd_eq in Zb by (eapply znth_some_range; eauto). injection Zb as <-. eapply touch_bat; eauto.
Qed.
