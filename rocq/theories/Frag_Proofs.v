(** Proofs about the fragment table: the table operations, objects, the invariant. *)
From Coq Require Import Permutation.
From Verif Require Import Base Lists IpKey_Model Conntrack_Model Conntrack_Spec Conntrack_Proofs Conntrack2_Proofs
  Frag_Model Frag_Spec.

(** ** More about the connection table, whatever the clock *)
Lemma slot_aget : forall t k, 0 < zlen t -> exists i b, slot t k = Ok i /\ aget t i = Ok b /\ znth t i = Some b.
Proof.
  intros t k H. unfold slot. destruct (zlen t =? 0) eqn:E; [lia|].
  assert (Hr : 0 <= djb2 k mod zlen t < zlen t) by (apply Z.mod_pos_bound; lia).
  destruct (znth_in_range _ t _ Hr) as [b Hb]. exists (djb2 k mod zlen t), b. split; [reflexivity|].
  split; [apply aget_ok|]; assumption.
Qed.

Lemma cstep_total : forall t o, 0 < zlen (t_buckets t) -> exists t' v ev, cstep t o = Ok (t', v, ev).
Proof.
  intros t o H. destruct o as [now k|now k ttl d al|now k|now]; cbn [cstep].
  - destruct (slot_aget _ k H) as [i [b [E1 [E2 _]]]]. unfold ctLookup. rewrite E1. cbn [obind]. rewrite E2. cbn [obind].
    destruct (lookupBucket b now) as [[b1 ev] n]. destruct (search b1 k now) as [[b' d]|]; eauto.
  - unfold ctInsertWithTTL. destruct (d =? 0); [eauto|].
    destruct (slot_aget _ k H) as [i [b [E1 [E2 _]]]]. rewrite E1. cbn [obind]. rewrite E2. cbn [obind].
    destruct (lookupBucket b now) as [[b1 ev] n]. destruct (search b1 k now) as [[b' d']|]; [eauto|].
    destruct (c_data (b_main b1) =? 0); [eauto|]. destruct al; eauto.
  - destruct (slot_aget _ k H) as [i [b [E1 [E2 _]]]]. unfold ctRemove. rewrite E1. cbn [obind]. rewrite E2. cbn [obind].
    destruct (lookupBucket b now) as [[b1 ev] n]. destruct (key_eqb k (c_key (b_main b1))); [cbn [obind]; eauto|].
    destruct (remove_chain (b_chain b1) k) as [l ev']. cbn [obind]. eauto.
  - destruct (ctStats t now) as [[t' v] ev]. eauto.
Qed.

Definition same_kd (t : ct) (c' : cent) : Prop := exists c, in_tab t c /\ c_key c = c_key c' /\ c_data c = c_data c'.

Lemma search_kd : forall b k now b' d c', search b k now = Some (b', d) -> wfb b -> In c' (bents b') ->
  exists c, In c (bents b) /\ c_key c = c_key c' /\ c_data c = c_data c'.
Proof.
  intros b k now b' d c' H W Hc. destruct (search_in _ _ _ _ _ _ H W Hc) as [Hx|[c [Hx ->]]]; [exists c'; auto|exists c; auto].
Qed.

Lemma step_tab : forall t o t' v ev c', winv t -> cstep t o = Ok (t', v, ev) -> in_tab t' c' ->
  same_kd t c' \/ (exists now ttl al, o = OInsert now (c_key c') ttl (c_data c') al /\ v = 0).
Proof.
  intros t o t' v ev c' W H Hc.
  assert (Sub : forall i b b' s, znth (t_buckets t) i = Some b -> t' = mkCt (zupd (t_buckets t) i b') s ->
     (In c' (bents b') -> exists c, In c (bents b) /\ c_key c = c_key c' /\ c_data c = c_data c') -> same_kd t c').
  { intros i b b' s Hb -> Hin. destruct (upd_tab_in _ _ _ _ _ _ Hb Hc) as [Hx|Hx]; [exists c'; auto|].
    destruct (Hin Hx) as [c [H1 H2]]. exists c. split; [exists i, b; auto|assumption]. }
  destruct o as [now k|now k ttl d al|now k|now]; cbn [cstep] in H.
  - left. unfold ctLookup in H. destruct (slot (t_buckets t) k) as [i| | |]; try discriminate. cbn [obind] in H.
    destruct (aget (t_buckets t) i) as [b| | |] eqn:Eb; try discriminate. apply aget_ok in Eb. cbn [obind] in H.
    destruct (lookupBucket b now) as [[b1 ev1] n] eqn:HL.
    destruct (lookupBucket_spec _ _ _ _ _ HL (W _ _ Eb)) as [L1 [L2 [L3 _]]].
    destruct (search b1 k now) as [[b' d]|] eqn:HS; injection H as <- <- <-; eapply Sub; eauto; intro Hx.
    + destruct (search_kd _ _ _ _ _ _ HS L1 Hx) as [c [H1 H2]]. rewrite L3 in H1. apply filter_In in H1. exists c. tauto.
    + rewrite L3 in Hx. apply filter_In in Hx. exists c'. tauto.
  - unfold ctInsertWithTTL in H. destruct (d =? 0) eqn:Ed; [injection H as <- <- <-; left; exists c'; auto|].
    destruct (slot (t_buckets t) k) as [i| | |]; try discriminate. cbn [obind] in H.
    destruct (aget (t_buckets t) i) as [b| | |] eqn:Eb; try discriminate. apply aget_ok in Eb. cbn [obind] in H.
    destruct (lookupBucket b now) as [[b1 ev1] n] eqn:HL.
    destruct (lookupBucket_spec _ _ _ _ _ HL (W _ _ Eb)) as [L1 [L2 [L3 _]]].
    destruct (search b1 k now) as [[b' d']|] eqn:HS.
    { left. injection H as <- <- <-. eapply Sub; eauto; intro Hx.
      destruct (search_kd _ _ _ _ _ _ HS L1 Hx) as [c [H1 H2]]. rewrite L3 in H1. apply filter_In in H1. exists c. tauto. }
    pose proof (search_none _ _ _ HS) as Hno.
    assert (Two : forall b' s, t' = mkCt (zupd (t_buckets t) i b') s ->
       (In c' (bents b') -> (c_key c' = k /\ c_data c' = d) \/ In c' (bents b1)) -> v = 0 ->
       same_kd t c' \/ (exists now' ttl' al', OInsert now k ttl d al = OInsert now' (c_key c') ttl' (c_data c') al' /\ v = 0)).
    { intros b' s -> Hin Hv. destruct (upd_tab_in _ _ _ _ _ _ Eb Hc) as [Hx|Hx]; [left; exists c'; auto|].
      destruct (Hin Hx) as [[<- <-]|H1]; [right; eauto|]. left. exists c'. split; [|auto]. exists i, b. split; [assumption|].
      rewrite L3 in H1. apply filter_In in H1. tauto. }
    destruct (c_data (b_main b1) =? 0) eqn:Em; [|destruct al as [mem|]]; injection H as <- <- <-.
    + destruct (insert_main_spec b1 k now ttl d (c_mem (b_main b1)) L1 ltac:(lia) ltac:(lia) Hno) as [_ HB].
      eapply Two; [reflexivity| |reflexivity]. rewrite HB. intros [<-|Hx]; auto.
    + destruct (insert_chain_spec b1 k now ttl d mem L1 ltac:(lia) ltac:(lia) Hno) as [_ [HB _]].
      eapply Two; [reflexivity| |reflexivity]. intro Hx. apply HB in Hx. destruct Hx as [->|Hx]; auto.
    + left. eapply Sub; eauto. intro Hx. rewrite L3 in Hx. apply filter_In in Hx. exists c'. tauto.
  - left. unfold ctRemove in H. destruct (slot (t_buckets t) k) as [i| | |]; try discriminate. cbn [obind] in H.
    destruct (aget (t_buckets t) i) as [b| | |] eqn:Eb; try discriminate. apply aget_ok in Eb. cbn [obind] in H.
    destruct (lookupBucket b now) as [[b1 ev1] n] eqn:HL.
    destruct (lookupBucket_spec _ _ _ _ _ HL (W _ _ Eb)) as [L1 [L2 [L3 _]]].
    destruct (key_eqb k (c_key (b_main b1))) eqn:Ek.
    + apply key_eqb_true in Ek. cbn [obind] in H. injection H as <- <- <-.
      destruct (remove_main_spec b1 k L1 (eq_sym Ek)) as [_ [HB _]].
      eapply Sub; eauto. intro Hx. apply HB in Hx. destruct Hx as [Hx _]. rewrite L3 in Hx. apply filter_In in Hx. exists c'. tauto.
    + apply key_eqb_false in Ek. destruct (remove_chain (b_chain b1) k) as [l' ev'] eqn:Er. cbn [obind] in H. injection H as <- <- <-.
      destruct (remove_other_spec b1 k l' ev' L1 ltac:(congruence) Er) as [_ [HB _]].
      eapply Sub; eauto. intro Hx. apply HB in Hx. destruct Hx as [Hx _]. rewrite L3 in Hx. apply filter_In in Hx. exists c'. tauto.
  - left. unfold ctStats in H. destruct (gc_all (t_buckets t) now) as [[[l' ev'] n] a] eqn:E. injection H as <- <- <-.
    destruct (gc_all_spec _ _ _ _ _ _ E) as [_ [_ [_ [_ [_ [_ [G7 _]]]]]]].
    { intros b Hb. apply In_znth in Hb. destruct Hb as [i Hi]. exact (W _ _ Hi). }
    apply in_tab_flat in Hc. cbn [t_buckets] in Hc. rewrite G7 in Hc. apply filter_In in Hc. exists c'.
    split; [apply in_tab_flat; tauto|auto].
Qed.

Lemma lookup_tab : forall t now k t' v ev, winv t -> ctLookup t now k = Ok (t', v, ev) -> v <> 0 ->
  exists c, in_tab t' c /\ c_key c = k /\ c_data c = v.
Proof.
  intros t now k t' v ev W H Hv. unfold ctLookup in H.
  destruct (slot (t_buckets t) k) as [i| | |]; try discriminate. cbn [obind] in H.
  destruct (aget (t_buckets t) i) as [b| | |] eqn:Eb; try discriminate. apply aget_ok in Eb. cbn [obind] in H.
  destruct (lookupBucket b now) as [[b1 ev1] n] eqn:HL.
  destruct (lookupBucket_spec _ _ _ _ _ HL (W _ _ Eb)) as [L1 _].
  destruct (search b1 k now) as [[b' d]|] eqn:HS; injection H as <- <- <-; [|congruence].
  destruct (search_some _ _ _ _ _ HS L1) as [_ [_ [_ [c [Hc [Hk [Hd [_ Hin]]]]]]]].
  exists (set_ref c now). split; [|auto]. exists i, b'. cbn [t_buckets]. split.
  - apply znth_zupd_eq. eapply znth_some_range; eauto.
  - apply Hin. right. reflexivity.
Qed.

Lemma in_tab_stored : forall t c, in_tab t c -> In (c_data c) (stored_data t).
Proof.
  intros t c [i [b [Hb Hc]]]. unfold stored_data. apply in_flat_map. exists b. split; [eapply znth_In; eauto|].
  rewrite bucket_data_eq. apply in_map. assumption.
Qed.

(** One bucket of ctStats. *)
Lemma gc_one : forall t i now b b' ev n a, winv t -> znth (t_buckets t) i = Some b -> bucketGC b now = (b', ev, n, a) ->
  let t' := mkCt (zupd (t_buckets t) i b') (gcs (t_stats t) n) in
  winv t' /\ Permutation (stored_data t) (stored_data t' ++ freed_data ev) /\
  Permutation (stored_buckets t) (stored_buckets t' ++ freed_buckets ev) /\ allocated ev = [] /\
  (forall c', in_tab t' c' -> same_kd t c').
Proof.
  intros t i now b b' ev n a W Hb H t'. subst t'.
  destruct (bucketGC_spec _ _ _ _ _ _ H (W _ _ Hb)) as [G1 [G2 [G3 [G4 [G5 [G6 [G7 G8]]]]]]].
  split; [apply winv_upd; assumption|].
  split. { unfold stored_data. cbn [t_buckets]. rewrite <- (app_nil_r (flat_map bucket_data (t_buckets t))) at 1.
    apply (flat_upd _ _ _ _ _ b); [assumption|]. rewrite app_nil_r. assumption. }
  split. { unfold stored_buckets. cbn [t_buckets]. rewrite <- (app_nil_r (flat_map _ (t_buckets t))) at 1.
    apply (flat_upd _ _ _ _ _ b); [assumption|]. rewrite app_nil_r. assumption. }
  split; [assumption|]. intros c' Hc. destruct (upd_tab_in _ _ _ _ _ _ Hb Hc) as [Hx|Hx]; [exists c'; auto|].
  rewrite G3 in Hx. apply filter_In in Hx. exists c'. split; [exists i, b; tauto|auto].
Qed.

Lemma allocated_insert : forall t now k ttl d al t' v ev, ctInsertWithTTL t now k ttl d al = Ok (t', v, ev) -> winv t ->
  (allocated ev = [] \/ exists m, al = Some m /\ allocated ev = [m]) /\
  (forall al' x, ctInsertWithTTL t now k ttl d al' = Ok x -> freed_buckets (snd x) = freed_buckets ev).
Proof.
  intros t now k ttl d al t' v ev H W. unfold ctInsertWithTTL in *. destruct (d =? 0).
  { injection H as <- <- <-. split; [auto|]. intros al' x Hx. injection Hx as <-. reflexivity. }
  destruct (slot (t_buckets t) k) as [i| | |]; try discriminate. cbn [obind] in *.
  destruct (aget (t_buckets t) i) as [b| | |] eqn:Eb; try discriminate. apply aget_ok in Eb. cbn [obind] in *.
  destruct (lookupBucket b now) as [[b1 ev1] n] eqn:HL.
  destruct (lookupBucket_spec _ _ _ _ _ HL (W _ _ Eb)) as [_ [_ [_ [_ [_ [_ L7]]]]]].
  destruct (search b1 k now) as [[b' d']|] eqn:HS.
  { injection H as <- <- <-. split; [auto|]. intros al' x Hx. injection Hx as <-. reflexivity. }
  destruct (c_data (b_main b1) =? 0).
  { injection H as <- <- <-. split; [auto|]. intros al' x Hx. injection Hx as <-. reflexivity. }
  split.
  - destruct al as [m|]; injection H as <- <- <-; rewrite allocated_app, L7; cbn; [right; eauto|auto].
  - intros al' x Hx.
    assert (Ev : freed_buckets ev = freed_buckets ev1) by (destruct al; injection H as <- <- <-; rewrite freed_buckets_app; cbn; apply app_nil_r).
    rewrite Ev. destruct al'; injection Hx as <-; cbn [snd]; rewrite freed_buckets_app; cbn; apply app_nil_r.
Qed.

(** ** Objects *)
Lemma oget_In : forall l o b, oget l o = Some b -> In (o, b) l.
Proof.
  induction l as [|[x y] l IH]; intros o b H; [discriminate|]. cbn in H. destruct (x =? o) eqn:E.
  - injection H as <-. left. f_equal. lia.
  - right. auto.
Qed.
Lemma In_oget : forall l o b, NoDup (map fst l) -> In (o, b) l -> oget l o = Some b.
Proof.
  induction l as [|[x y] l IH]; intros o b N H; [destruct H|]. cbn in N. apply NoDup_cons_iff in N. destruct N as [N1 N2].
  cbn. destruct H as [H|H].
  - injection H as -> ->. rewrite Z.eqb_refl. reflexivity.
  - destruct (x =? o) eqn:E; [|auto]. exfalso. apply N1. assert (x = o) by lia. subst x. apply (in_map fst) in H. exact H.
Qed.
Lemma oset_fst : forall l o b, map fst (oset l o b) = map fst l.
Proof. induction l as [|[x y] l IH]; intros o b; [reflexivity|]. cbn. destruct (x =? o) eqn:E; cbn; f_equal; [lia|apply IH]. Qed.
Lemma oget_oset : forall l o b o', (exists b0, oget l o = Some b0) -> oget (oset l o b) o' = if o =? o' then Some b else oget l o'.
Proof.
  induction l as [|[x y] l IH]; intros o b o' [b0 H]; [discriminate|]. cbn in H |- *. destruct (x =? o) eqn:E; cbn.
  - destruct (o =? o') eqn:E2; [reflexivity|]. destruct (x =? o') eqn:E3; [lia|reflexivity].
  - destruct (x =? o') eqn:E3.
    + destruct (o =? o') eqn:E2; [lia|reflexivity].
    + apply IH. eauto.
Qed.
Lemma odel_incl : forall l o x, In x (odel l o) -> In x l.
Proof.
  induction l as [|[a y] l IH]; intros o x H; [destruct H|]. cbn in H. destruct (a =? o); [right; assumption|].
  destruct H as [<-|H]; [left; reflexivity|right; eauto].
Qed.
Lemma odel_nodup : forall l o, NoDup (map fst l) -> NoDup (map fst (odel l o)).
Proof.
  induction l as [|[x y] l IH]; intros o N; [constructor|]. cbn in N |- *. apply NoDup_cons_iff in N. destruct N as [N1 N2].
  destruct (x =? o); [assumption|]. cbn. constructor; [|auto]. intro H. apply N1. apply in_map_iff in H.
  destruct H as [z [E H]]. apply odel_incl in H. subst x. apply in_map. assumption.
Qed.
Lemma oget_none : forall l o, ~ In o (map fst l) -> oget l o = None.
Proof.
  intros l o H. destruct (oget l o) as [b|] eqn:E; [|reflexivity]. apply oget_In in E. apply (in_map fst) in E. contradiction.
Qed.
Lemma oget_odel : forall l o o', NoDup (map fst l) -> oget (odel l o) o' = if o =? o' then None else oget l o'.
Proof.
  induction l as [|[x y] l IH]; intros o o' N; [cbn; destruct (o =? o'); reflexivity|].
  cbn in N |- *. apply NoDup_cons_iff in N. destruct N as [N1 N2].
  destruct (x =? o) eqn:E; cbn.
  - destruct (o =? o') eqn:E2; [apply oget_none; replace o' with x by lia; assumption|].
    destruct (x =? o') eqn:E3; [lia|reflexivity].
  - rewrite IH by assumption. destruct (x =? o') eqn:E3; [|reflexivity]. destruct (o =? o') eqn:E2; [lia|reflexivity].
Qed.
Lemma odel_length : forall l o b, oget l o = Some b -> zlen l = 1 + zlen (odel l o).
Proof.
  induction l as [|[x y] l IH]; intros o b H; [discriminate|]. cbn [oget odel fst snd] in H |- *. destruct (x =? o).
  - unfold zlen. cbn [length]. lia.
  - specialize (IH _ _ H). unfold zlen in *. cbn [length]. lia.
Qed.
Lemma oset_length : forall l o b, zlen (oset l o b) = zlen l.
Proof.
  intros l o b. pose proof (f_equal (@length Z) (oset_fst l o b)) as E. rewrite !map_length in E. unfold zlen. lia.
Qed.
Definition wt (x : Z * obj) := tag (o_key (snd x)) (o_stored (snd x)).
Lemma waiting_del : forall l o b, oget l o = Some b ->
  Permutation (flat_map wt l) (wt (o, b) ++ flat_map wt (odel l o)).
Proof.
  induction l as [|[x y] l IH]; intros o b H; [discriminate|]. cbn in H |- *. destruct (x =? o).
  - injection H as <-. reflexivity.
  - cbn [flat_map]. rewrite (IH _ _ H), !app_assoc. apply Permutation_app_tail. apply Permutation_app_comm.
Qed.
Lemma waiting_set : forall l o b b', oget l o = Some b ->
  Permutation (flat_map wt (oset l o b')) (wt (o, b') ++ flat_map wt (odel l o)).
Proof.
  induction l as [|[x y] l IH]; intros o b b' H; [discriminate|]. cbn in H |- *. destruct (x =? o).
  - cbn [flat_map]. reflexivity.
  - cbn [flat_map]. rewrite (IH _ _ _ H), !app_assoc. apply Permutation_app_tail. apply Permutation_app_comm.
Qed.

(** ** Counting *)
Definition cnt (l : list Z) (o : Z) : Z := Z.of_nat (count_occ Z.eq_dec l o).
Lemma cnt_perm : forall l l' o, Permutation l l' -> cnt l o = cnt l' o.
Proof.
  intros l l' o H. unfold cnt. f_equal. induction H as [|x l l' _ IH|x y l|l l' l'' _ IH1 _ IH2]; cbn; try congruence.
  - destruct (Z.eq_dec x o); congruence.
  - destruct (Z.eq_dec x o), (Z.eq_dec y o); congruence.
Qed.
Lemma cnt_app : forall l l' o, cnt (l ++ l') o = cnt l o + cnt l' o.
Proof. intros l l' o. unfold cnt. rewrite count_occ_app. lia. Qed.
Lemma cnt_nonneg : forall l o, 0 <= cnt l o.
Proof. intros. unfold cnt. lia. Qed.
Lemma cnt_in : forall l o, In o l -> 1 <= cnt l o.
Proof. intros l o H. apply (count_occ_In Z.eq_dec) in H. unfold cnt. lia. Qed.
Lemma cnt_pos_in : forall l o, 1 <= cnt l o -> In o l.
Proof. intros l o H. apply (count_occ_In Z.eq_dec). unfold cnt in H. lia. Qed.
Lemma cnt_cons : forall x l o, cnt (x :: l) o = (if x =? o then 1 else 0) + cnt l o.
Proof.
  intros x l o. unfold cnt. cbn. destruct (Z.eq_dec x o); destruct (x =? o) eqn:E; lia.
Qed.
Definition rc (l : list (Z * obj)) (o : Z) : Z := match oget l o with Some b => o_ref b | None => 0 end.

(** ** Traces *)
Lemma stored_tr_app : forall a b, stored_tr (a ++ b) = stored_tr a ++ stored_tr b.
Proof. induction a as [|x a IH]; intro b; [reflexivity|]. destruct x; cbn; rewrite ?IH; reflexivity. Qed.
Lemma handed_tr_app : forall a b, handed_tr (a ++ b) = handed_tr a ++ handed_tr b.
Proof. induction a as [|x a IH]; intro b; [reflexivity|]. destruct x; cbn; rewrite ?IH, ?app_assoc; reflexivity. Qed.
Lemma discarded_tr_app : forall a b, discarded_tr (a ++ b) = discarded_tr a ++ discarded_tr b.
Proof. induction a as [|x a IH]; intro b; [reflexivity|]. destruct x; cbn; rewrite ?IH, ?app_assoc; reflexivity. Qed.

(** Every value returned was set before by a first fragment with the same key. *)
Definition justified (tr : list obs) : Prop :=
  forall t1 k v t2, tr = t1 ++ Returned k 0 (Some v) :: t2 -> In (Accepted k v) t1.
Lemma justified_app : forall tr ob, justified tr ->
  (forall k v, In (Returned k 0 (Some v)) ob -> In (Accepted k v) tr) -> justified (tr ++ ob).
Proof.
  intros tr ob J H t1 k v t2 E. 
  assert (Hs : exists z, (tr = t1 ++ Returned k 0 (Some v) :: z) \/ (t1 = tr ++ z /\ In (Returned k 0 (Some v)) ob)).
  { clear J H. revert t1 E. induction tr as [|x tr IH]; intros t1 E.
    - exists t1. right. split; [reflexivity|]. cbn in E. rewrite E. apply in_elt.
    - destruct t1 as [|y t1]; cbn in E.
      + injection E as -> E. exists tr. left. reflexivity.
      + injection E as -> E. destruct (IH t1 E) as [z [Hz|[Hz Hi]]]; exists z; [left; cbn; congruence|right; cbn; split; congruence]. }
  destruct Hs as [z [Hz|[-> Hi]]]; [eapply J; eauto|]. apply in_or_app. left. auto.
Qed.

(** ** The invariant *)
Definition held (p : pc) : list Z := match holds p with Some o => [o] | None => [] end.
(** The item a thread is about to store. *)
Definition hand (p : pc) : list frag := match p with PPut _ _ f | PBack _ _ f _ _ => [f] | _ => [] end.

Definition good (tr : list obs) (b : obj) : Prop :=
  (o_state b <> Storing -> o_stored b = []) /\
  (o_state b = Valid -> o_val b <> None) /\
  (forall v, o_val b = Some v -> In (Accepted (o_key b) v) tr).

Definition key_ok (s : sys) (c : call) (o : Z) : Prop :=
  o < s_next s /\ forall b, oget (s_objs s) o = Some b -> o_key b = c_k c.
Definition val_ok (tr : list obs) (c : call) (rc : Z) (v : option Z) : Prop :=
  match v with Some x => In (Accepted (c_k c) x) tr | None => rc <> 0 end.
Definition is_store (c : call) : Prop := match c with CStore _ _ _ => True | _ => False end.
Definition is_first (c : call) : Prop := match c with CFirst _ _ _ _ => True | _ => False end.

Definition pc_ok (tr : list obs) (s : sys) (p : pc) : Prop :=
  match p with
  | Idle => True
  | PAlloc c | PAgain c => ~ (match c with CGet _ _ => True | _ => False end)
  | PIns c o | PInc c o | PLost c o | PFull c o => key_ok s c o /\ ~ (match c with CGet _ _ => True | _ => False end)
  | PBody c o => key_ok s c o
  | PTaken c o _ => key_ok s c o /\ is_first c
  | PGive c _ => is_first c
  | PCheck c o | PItem c o | PPoison c o | PPoisoned c o _ | PPut c o _ => key_ok s c o /\ is_store c
  | PVal c o => key_ok s c o /\ forall b, oget (s_objs s) o = Some b -> o_val b <> None
  | PDrop c _ => is_store c
  | PBack c o _ rc v => key_ok s c o /\ is_store c /\ val_ok tr c rc v
  | PUnl c o rc v => key_ok s c o /\ val_ok tr c rc v
  end.

Record Inv (g : conf) (tr : list obs) (s : sys) (ps : list pc) (D : list Z) : Prop := {
  v_wf : winv (s_ct s);
  v_len : zlen (t_buckets (s_ct s)) = g_hsize g;
  v_next : 1 <= s_next s;
  v_nodup : NoDup (map fst (s_objs s));
  v_ids : forall o b, oget (s_objs s) o = Some b -> 0 < o < s_next s;
  v_ref : forall o, rc (s_objs s) o = cnt (stored_data (s_ct s) ++ flat_map held ps ++ D) o;
  v_pos : forall o b, oget (s_objs s) o = Some b -> 1 <= o_ref b;
  v_good : forall o b, oget (s_objs s) o = Some b -> good tr b;
  v_entry : forall c b, in_tab (s_ct s) c -> oget (s_objs s) (c_data c) = Some b -> o_key b = c_key c;
  v_pcs : Forall (pc_ok tr s) ps;
  v_fr0 : 0 <= s_frfree s;
  v_fr : s_frfree s + zlen (waiting s) + zlen (flat_map taken ps) + zlen (flat_map hand ps) = g_maxFragments g;
  v_fd0 : 0 <= s_fdfree s;
  v_fd : s_fdfree s + zlen (s_objs s) = u32 (g_hsize g + g_maxBuckets g);
  v_cons : Permutation (stored_tr tr) (waiting s ++ flat_map taken ps ++ handed_tr tr ++ discarded_tr tr);
  v_disc : s_discarded s = u32 (zlen (discarded_tr tr));
  v_fid : NoDup (map f_id (map snd (stored_tr tr) ++ flat_map hand ps));
  v_fidn : forall f, In f (map snd (stored_tr tr) ++ flat_map hand ps) -> f_id f < s_next s;
  v_just : justified tr }.

(** Bookkeeping of the overflow buckets, separately. *)
Definition Bk (g : conf) (s : sys) : Prop :=
  0 <= s_bkfree s /\ s_bkfree s + zlen (stored_buckets (s_ct s)) = g_maxBuckets g.

Lemma zlen_app : forall A (a b : list A), zlen (a ++ b) = zlen a + zlen b.
Proof. intros. unfold zlen. rewrite app_length. lia. Qed.
Lemma zlen_perm : forall A (a b : list A), Permutation a b -> zlen a = zlen b.
Proof. intros A a b H. unfold zlen. rewrite (Permutation_length H). reflexivity. Qed.
Lemma zlen_tag : forall k l, zlen (tag k l) = zlen l.
Proof. intros. unfold tag. apply zlen_map. Qed.

Lemma pc_ok_mono : forall tr s tr' s' p, pc_ok tr s p -> s_next s <= s_next s' ->
  (forall x, In x tr -> In x tr') ->
  (forall o b', o < s_next s -> oget (s_objs s') o = Some b' -> exists b, oget (s_objs s) o = Some b /\ o_key b' = o_key b /\ (o_val b <> None -> o_val b' <> None)) ->
  pc_ok tr' s' p.
Proof.
  intros tr s tr' s' p H Hn Ht Ho.
  assert (HK : forall c o, key_ok s c o -> key_ok s' c o).
  { intros c o [K1 K2]. split; [lia|]. intros b' Hb'. destruct (Ho _ _ K1 Hb') as [b [Hb [-> _]]]. auto. }
  assert (HV : forall c rc v, val_ok tr c rc v -> val_ok tr' c rc v).
  { intros c rc [x|]; unfold val_ok; auto. }
  destruct p; cbn in *; intuition auto.
  destruct H0 as [K1 K2]. destruct (Ho _ _ K1 H) as [b' [Hb' [_ Hv]]]. specialize (H1 _ Hb'). auto.
Qed.

Lemma good_mono : forall tr tr' b, good tr b -> (forall x, In x tr -> In x tr') -> good tr' b.
Proof. intros tr tr' b [G1 [G2 G3]] H. repeat split; auto. Qed.

(** Replacing the state of one thread. *)
Lemma Inv_swap : forall g tr s p ps D p' D', Inv g tr s (p :: ps) D -> pc_ok tr s p' ->
  Permutation (held p ++ D) (held p' ++ D') -> taken p' = taken p -> hand p' = hand p ->
  Inv g tr s (p' :: ps) D'.
Proof.
  intros g tr s p ps D p' D' I Hp Hh Ht Hi. destruct I. constructor; auto.
  - intro o. rewrite v_ref0. apply cnt_perm. cbn [flat_map]. apply Permutation_app_head. rewrite <- !app_assoc.
    rewrite (Permutation_app_comm (flat_map held ps) D), (Permutation_app_comm (flat_map held ps) D').
    rewrite !app_assoc. apply Permutation_app_tail. assumption.
  - apply Forall_cons_iff in v_pcs0. destruct v_pcs0. apply Forall_cons; assumption.
  - cbn [flat_map] in *. rewrite Ht, Hi. assumption.
  - cbn [flat_map] in *. rewrite Ht. assumption.
  - cbn [flat_map] in *. rewrite Hi. assumption.
  - cbn [flat_map] in *. rewrite Hi. assumption.
Qed.

Lemma Inv_perm : forall g tr s ps ps' D, Inv g tr s ps D -> Permutation ps ps' -> Inv g tr s ps' D.
Proof.
  intros g tr s ps ps' D I P. destruct I.
  assert (PF : forall B (f : pc -> list B), Permutation (flat_map f ps) (flat_map f ps')) by (intros; apply Permutation_flat_map; assumption).
  constructor; auto.
  - intro o. rewrite v_ref0. apply cnt_perm. apply Permutation_app_head, Permutation_app_tail. auto.
  - rewrite Forall_forall in *. intros p Hp. apply v_pcs0. eapply Permutation_in; [symmetry; eassumption|assumption].
  - rewrite <- (zlen_perm _ _ _ (PF _ taken)), <- (zlen_perm _ _ _ (PF _ hand)). assumption.
  - rewrite v_cons0. apply Permutation_app_head, Permutation_app_tail. auto.
  - eapply Permutation_NoDup; [|eassumption]. apply Permutation_map, Permutation_app_head. auto.
  - intros f Hf. apply v_fidn0. eapply Permutation_in; [|eassumption]. apply Permutation_app_head. symmetry. auto.
Qed.

(** ** Locking and unlocking *)
Definition same_rest (s s' : sys) : Prop := s_ct s' = s_ct s /\ s_next s' = s_next s /\ s_bkfree s' = s_bkfree s.

Lemma mid_perm : forall A (a b c : list A) x, Permutation (a ++ b ++ x :: c) (x :: a ++ b ++ c).
Proof. intros. rewrite !app_assoc. symmetry. apply Permutation_middle. Qed.

Lemma lock_ok : forall g tr s ps D o b, Inv g tr s ps D -> oget (s_objs s) o = Some b ->
  exists s', fragDataLock s o = Ok s' /\ Inv g tr s' ps (o :: D) /\ same_rest s s'.
Proof.
  intros g tr s ps D o b I Hb. unfold fragDataLock. rewrite Hb. eexists. split; [reflexivity|].
  set (b' := mkObj (o_ref b + 1) (o_state b) (o_val b) (o_stored b) (o_key b)).
  assert (Hg : forall o', oget (oset (s_objs s) o b') o' = if o =? o' then Some b' else oget (s_objs s) o') by (intro; apply oget_oset; eauto).
  assert (PW : Permutation (waiting s) (waiting (set_objs s (oset (s_objs s) o b')))).
  { unfold waiting. cbn [s_objs set_objs]. change (fun x : Z * obj => tag (o_key (snd x)) (o_stored (snd x))) with wt.
    rewrite (waiting_del _ _ _ Hb), (waiting_set _ _ _ b' Hb). reflexivity. }
  split; [|repeat split]. destruct I. constructor; auto.
  - cbn. rewrite oset_fst. assumption.
  - cbn. intros o' b1. rewrite Hg. destruct (o =? o') eqn:E; [|eauto]. intro. assert (o = o') by lia. subst o'. eauto.
  - intro o'. cbn [set_objs s_objs s_ct]. rewrite (cnt_perm _ _ _ (mid_perm _ _ _ _ _)), cnt_cons. specialize (v_ref0 o').
    unfold rc in *. rewrite Hg. destruct (o =? o') eqn:E; [|lia]. assert (o = o') by lia. subst o'. rewrite Hb in v_ref0. subst b'. cbn [o_ref]. lia.
  - cbn. intros o' b1. rewrite Hg. destruct (o =? o') eqn:E; [|eauto]. intro Hx. injection Hx as <-. cbn. specialize (v_pos0 _ _ Hb). lia.
  - cbn. intros o' b1. rewrite Hg. destruct (o =? o') eqn:E; [|eauto]. intro Hx. injection Hx as <-. exact (v_good0 _ _ Hb).
  - cbn. intros c b1 Hc. rewrite Hg. destruct (o =? c_data c) eqn:E; [|eauto]. intro Hx. injection Hx as <-. cbn.
    apply v_entry0; [assumption|]. replace (c_data c) with o by lia. assumption.
  - rewrite Forall_forall in *. intros p Hp. eapply pc_ok_mono; [apply v_pcs0; assumption|cbn; lia|auto|].
    cbn. intros o' b1 _. rewrite Hg. destruct (o =? o') eqn:E; [|eauto]. intro Hx. injection Hx as <-. assert (o = o') by lia. subst o'. eauto.
  - rewrite <- (zlen_perm _ _ _ PW). assumption.
  - cbn. rewrite oset_length. assumption.
  - rewrite <- PW. assumption.
Qed.

Lemma u32_add_u32 : forall a b, u32 (u32 a + b) = u32 (a + b).
Proof. intros. unfold u32. apply Zplus_mod_idemp_l. Qed.

Lemma unlock_ok : forall g tr s ps D o, Inv g tr s ps (o :: D) ->
  exists s' ob, fragDataUnlock s o = Ok (s', ob) /\ Inv g (tr ++ ob) s' ps D /\ same_rest s s' /\
    (forall o' b, oget (s_objs s') o' = Some b -> exists b0, oget (s_objs s) o' = Some b0).
Proof.
  intros g tr s ps D o I.
  assert (Hr : rc (s_objs s) o >= 1).
  { rewrite (v_ref _ _ _ _ _ I). rewrite (cnt_perm _ _ _ (mid_perm _ _ _ _ _)), cnt_cons, Z.eqb_refl.
    pose proof (cnt_nonneg (stored_data (s_ct s) ++ flat_map held ps ++ D) o). lia. }
  unfold rc in Hr. destruct (oget (s_objs s) o) as [b|] eqn:Hb; [|lia]. unfold fragDataUnlock. rewrite Hb.
  destruct (o_ref b - 1 =? 0) eqn:Ez.
  - do 2 eexists. split; [reflexivity|]. pose proof (v_nodup _ _ _ _ _ I) as N.
    assert (Hg : forall o', oget (odel (s_objs s) o) o' = if o =? o' then None else oget (s_objs s) o') by (intro; apply oget_odel; assumption).
    assert (PW : Permutation (waiting s) (tag (o_key b) (o_stored b) ++ flat_map wt (odel (s_objs s) o))).
    { unfold waiting. change (fun x : Z * obj => tag (o_key (snd x)) (o_stored (snd x))) with wt. rewrite (waiting_del _ _ _ Hb). reflexivity. }
    set (W' := flat_map wt (odel (s_objs s) o)) in *.
    split; [|split; [repeat split|]].
    2:{ cbn. intros o' b1. rewrite Hg. destruct (o =? o'); [discriminate|eauto]. }
    destruct I. constructor; auto.
    + cbn. apply odel_nodup. assumption.
    + cbn. intros o' b1. rewrite Hg. destruct (o =? o'); [discriminate|eauto].
    + intro o'. specialize (v_ref0 o'). rewrite (cnt_perm _ _ _ (mid_perm _ _ _ _ _)), cnt_cons in v_ref0.
      cbn [add_fd add_fr add_disc set_objs s_objs s_ct]. unfold rc in *. rewrite Hg. destruct (o =? o') eqn:E.
      * assert (o = o') by lia. subst o'. rewrite Hb in v_ref0. lia.
      * lia.
    + cbn. intros o' b1. rewrite Hg. destruct (o =? o'); [discriminate|eauto].
    + cbn. intros o' b1. rewrite Hg. destruct (o =? o'); [discriminate|]. intro Hx.
      eapply good_mono; [eauto|]. intros; apply in_or_app; auto.
    + cbn. intros c b1 Hc. rewrite Hg. destruct (o =? c_data c); [discriminate|]. eauto.
    + rewrite Forall_forall in *. intros p Hp. eapply pc_ok_mono; [apply v_pcs0; assumption|cbn; lia|intros; apply in_or_app; auto|].
      cbn. intros o' b1 _. rewrite Hg. destruct (o =? o'); [discriminate|]. eauto.
    + cbn. pose proof (zlen_nonneg _ (o_stored b)). lia.
    + cbn [add_fd add_fr add_disc set_objs s_objs s_ct s_frfree]. unfold waiting at 1. cbn [add_fd add_fr add_disc set_objs s_objs].
      change (fun x : Z * obj => tag (o_key (snd x)) (o_stored (snd x))) with wt. fold W'.
      rewrite (zlen_perm _ _ _ PW), zlen_app, zlen_tag in v_fr2. lia.
    + cbn [add_fd add_fr add_disc set_objs s_fdfree]. lia.
    + cbn [add_fd add_fr add_disc set_objs s_objs s_fdfree]. rewrite (odel_length _ _ _ Hb) in v_fd2. lia.
    + rewrite stored_tr_app, handed_tr_app, discarded_tr_app. cbn [stored_tr handed_tr discarded_tr]. rewrite !app_nil_r.
      rewrite v_cons0. unfold waiting at 2. cbn [add_fd add_fr add_disc set_objs s_objs].
      change (fun x : Z * obj => tag (o_key (snd x)) (o_stored (snd x))) with wt. fold W'. rewrite PW.
      rewrite !app_assoc. rewrite <- !app_assoc. rewrite Permutation_app_comm. rewrite <- !app_assoc. reflexivity.
    + cbn [add_fd add_fr add_disc set_objs s_discarded]. rewrite discarded_tr_app. cbn [discarded_tr]. rewrite app_nil_r, zlen_app, zlen_tag, v_disc0.
      apply u32_add_u32.
    + rewrite stored_tr_app. cbn [stored_tr]. rewrite app_nil_r. assumption.
    + rewrite stored_tr_app. cbn [stored_tr]. rewrite app_nil_r. assumption.
    + apply justified_app; [assumption|]. intros k v [H|[]]. discriminate.
  - do 2 eexists. split; [reflexivity|]. rewrite app_nil_r.
    set (b' := mkObj (o_ref b - 1) (o_state b) (o_val b) (o_stored b) (o_key b)).
    assert (Hg : forall o', oget (oset (s_objs s) o b') o' = if o =? o' then Some b' else oget (s_objs s) o') by (intro; apply oget_oset; eauto).
    assert (PW : Permutation (waiting s) (waiting (set_objs s (oset (s_objs s) o b')))).
    { unfold waiting. cbn [s_objs set_objs]. change (fun x : Z * obj => tag (o_key (snd x)) (o_stored (snd x))) with wt.
      rewrite (waiting_del _ _ _ Hb), (waiting_set _ _ _ b' Hb). reflexivity. }
    split; [|split; [repeat split|]].
    2:{ cbn. intros o' b1. rewrite Hg. destruct (o =? o') eqn:E; [|eauto]. replace o' with o by lia. eauto. }
    destruct I. constructor; auto.
    + cbn. rewrite oset_fst. assumption.
    + cbn. intros o' b1. rewrite Hg. destruct (o =? o') eqn:E; [|eauto]. intro. assert (o = o') by lia. subst o'. eauto.
    + intro o'. specialize (v_ref0 o'). rewrite (cnt_perm _ _ _ (mid_perm _ _ _ _ _)), cnt_cons in v_ref0.
      cbn [set_objs s_objs s_ct]. unfold rc in *. rewrite Hg. destruct (o =? o') eqn:E; [|lia].
      assert (o = o') by lia. subst o'. rewrite Hb in v_ref0. subst b'. cbn [o_ref]. lia.
    + cbn. intros o' b1. rewrite Hg. destruct (o =? o') eqn:E; [|eauto]. intro Hx. injection Hx as <-. cbn. lia.
    + cbn. intros o' b1. rewrite Hg. destruct (o =? o') eqn:E; [|eauto]. intro Hx. injection Hx as <-. exact (v_good0 _ _ Hb).
    + cbn. intros c b1 Hc. rewrite Hg. destruct (o =? c_data c) eqn:E; [|eauto]. intro Hx. injection Hx as <-. cbn.
      apply v_entry0; [assumption|]. replace (c_data c) with o by lia. assumption.
    + rewrite Forall_forall in *. intros p Hp. eapply pc_ok_mono; [apply v_pcs0; assumption|cbn; lia|auto|].
      cbn. intros o' b1 _. rewrite Hg. destruct (o =? o') eqn:E; [|eauto]. intro Hx. injection Hx as <-. assert (o = o') by lia. subst o'. eauto.
    + rewrite <- (zlen_perm _ _ _ PW). assumption.
    + cbn. rewrite oset_length. assumption.
    + rewrite <- PW. assumption.
Qed.

Lemma Inv_bk : forall g tr s ps D n, Inv g tr s ps D -> Inv g tr (add_bk s n) ps D.
Proof. intros g tr s ps D n I. destruct I. constructor; auto. Qed.

Lemma callbacks_ok : forall ev g tr s ps D, Inv g tr s ps (freed_data ev ++ D) ->
  exists s' ob, callbacks s ev = Ok (s', ob) /\ Inv g (tr ++ ob) s' ps D /\ s_ct s' = s_ct s /\ s_next s' = s_next s /\
    s_bkfree s' = s_bkfree s + zlen (freed_buckets ev) - zlen (allocated ev).
Proof.
  induction ev as [|e ev IH]; intros g tr s ps D I.
  - exists s, []. cbn [callbacks freed_buckets allocated]. rewrite app_nil_r. split; [reflexivity|]. split; [assumption|]. split; [reflexivity|]. split; [reflexivity|]. unfold zlen. cbn [length]. lia.
  - destruct e as [d|m|[m|]]; cbn [callbacks freed_data freed_buckets allocated] in *.
    + destruct (unlock_ok _ _ _ _ _ _ I) as [s1 [ob1 [E1 [I1 [[R1 [R2 R3]] _]]]]]. rewrite E1. cbn [obind].
      destruct (IH _ _ _ _ _ I1) as [s2 [ob2 [E2 [I2 [C1 [C2 C3]]]]]]. rewrite E2. cbn [obind].
      exists s2, (ob1 ++ ob2). rewrite app_assoc. split; [reflexivity|]. split; [assumption|]. split; [congruence|]. split; congruence.
    + cbn [obind]. apply (Inv_bk _ _ _ _ _ 1) in I. destruct (IH _ _ _ _ _ I) as [s2 [ob2 [E2 [I2 [C1 [C2 C3]]]]]]. rewrite E2. cbn [obind].
      exists s2, ob2. cbn [app]. split; [reflexivity|]. split; [assumption|]. split; [assumption|]. split; [assumption|]. cbn [add_bk s_bkfree] in C3. unfold zlen in *. cbn [length]. lia.
    + cbn [obind]. apply (Inv_bk _ _ _ _ _ (-1)) in I. destruct (IH _ _ _ _ _ I) as [s2 [ob2 [E2 [I2 [C1 [C2 C3]]]]]]. rewrite E2. cbn [obind].
      exists s2, ob2. cbn [app]. split; [reflexivity|]. split; [assumption|]. split; [assumption|]. split; [assumption|]. cbn [add_bk s_bkfree] in C3. unfold zlen in *. cbn [length]. lia.
    + cbn [obind]. destruct (IH _ _ _ _ _ I) as [s2 [ob2 [E2 [I2 [C1 [C2 C3]]]]]]. rewrite E2. cbn [obind].
      exists s2, ob2. cbn [app]. auto.
Qed.

(** ** Table operations *)
(** Replacing the table, with the data it gives up as debt. *)
Lemma Inv_ct : forall g tr s ps D t ps' F, Inv g tr s ps D -> winv t -> zlen (t_buckets t) = zlen (t_buckets (s_ct s)) ->
  Permutation (stored_data (s_ct s) ++ flat_map held ps ++ D) (stored_data t ++ flat_map held ps' ++ F) ->
  flat_map taken ps' = flat_map taken ps -> flat_map hand ps' = flat_map hand ps ->
  (forall c b, in_tab t c -> oget (s_objs s) (c_data c) = Some b -> o_key b = c_key c) ->
  Forall (pc_ok tr s) ps' ->
  Inv g tr (set_ct s t) ps' F.
Proof.
  intros g tr s ps D t ps' F I W L P Ht Hh He Hp. destruct I. constructor; auto.
  - cbn. congruence.
  - intro o. cbn [set_ct s_objs s_ct]. rewrite v_ref0. apply cnt_perm. assumption.
  - rewrite Ht, Hh. assumption.
  - rewrite Ht. assumption.
  - rewrite Hh. assumption.
  - rewrite Hh. assumption.
Qed.

Lemma op_len : forall t o t' v ev, cstep t o = Ok (t', v, ev) -> zlen (t_buckets t') = zlen (t_buckets t).
Proof. exact step_len. Qed.

Lemma table_ok : forall g tr s ps o, conf_ok g -> Inv g tr s ps [] -> (forall now k ttl d al, o <> OInsert now k ttl d al) ->
  exists s' v ob, table_op s o = Ok (s', v, ob) /\ Inv g (tr ++ ob) s' ps [] /\ s_next s' = s_next s /\
    (Bk g s -> Bk g s') /\
    (exists t ev, cstep (s_ct s) o = Ok (t, v, ev) /\ s_ct s' = t).
Proof.
  intros g tr s ps o G I No. unfold table_op.
  destruct (cstep_total (s_ct s) o) as [t [v [ev E]]]; [rewrite (v_len _ _ _ _ _ I); destruct G; lia|]. rewrite E. cbn [obind].
  destruct (step_conserves _ _ _ _ _ (v_wf _ _ _ _ _ I) E) as [W [P1 P2]].
  assert (Hi : ins1 o v = []) by (destruct o; try reflexivity; exfalso; eapply No; reflexivity). rewrite Hi, app_nil_r in P1.
  assert (I1 : Inv g tr (set_ct s t) ps (freed_data ev ++ [])).
  { apply (Inv_ct _ _ _ ps []); auto; [eapply op_len; eauto| | |exact (v_pcs _ _ _ _ _ I)].
    - rewrite P1, !app_nil_r, <- app_assoc. apply Permutation_app_head. apply Permutation_app_comm.
    - intros c b Hc Hb. destruct (step_tab _ _ _ _ _ _ (v_wf _ _ _ _ _ I) E Hc) as [[c0 [H1 [H2 H3]]]|[n [ttl [al [H1 _]]]]].
      + rewrite <- H2. apply (v_entry _ _ _ _ _ I); [assumption|]. rewrite H3. assumption.
      + exfalso. eapply No; eauto. }
  destruct (callbacks_ok _ _ _ _ _ _ I1) as [s' [ob [E2 [I2 [C1 [C2 C3]]]]]]. rewrite E2. cbn [obind].
  exists s', v, ob. split; [reflexivity|]. split; [assumption|]. split; [assumption|]. split.
  - intros [B1 B2]. cbn [set_ct s_ct s_bkfree] in *.
    assert (Ha : allocated ev = []).
    { destruct o as [now k|now k ttl d al|now k|now]; [| exfalso; eapply No; reflexivity| |].
      - cbn [cstep] in E. unfold ctLookup in E. destruct (slot (t_buckets (s_ct s)) k) as [i| | |]; try discriminate. cbn [obind] in E.
        destruct (aget (t_buckets (s_ct s)) i) as [b| | |] eqn:Eb; try discriminate. apply aget_ok in Eb. cbn [obind] in E.
        destruct (lookupBucket b now) as [[b1 ev1] n] eqn:HL.
        destruct (lookupBucket_spec _ _ _ _ _ HL (v_wf _ _ _ _ _ I _ _ Eb)) as [_ [_ [_ [_ [_ [_ L7]]]]]].
        destruct (search b1 k now) as [[b' d]|]; injection E as _ _ <-; assumption.
      - cbn [cstep] in E. unfold ctRemove in E. destruct (slot (t_buckets (s_ct s)) k) as [i| | |]; try discriminate. cbn [obind] in E.
        destruct (aget (t_buckets (s_ct s)) i) as [b| | |] eqn:Eb; try discriminate. apply aget_ok in Eb. cbn [obind] in E.
        destruct (lookupBucket b now) as [[b1 ev1] n] eqn:HL.
        destruct (lookupBucket_spec _ _ _ _ _ HL (v_wf _ _ _ _ _ I _ _ Eb)) as [L1 [_ [_ [_ [_ [_ L7]]]]]].
        destruct (key_eqb k (c_key (b_main b1))) eqn:Ek.
        + cbn [obind] in E. injection E as _ _ <-. rewrite allocated_app, L7. destruct (c_data (b_main b1) =? 0); reflexivity.
        + apply key_eqb_false in Ek. destruct (remove_chain (b_chain b1) k) as [l' ev'] eqn:Er. cbn [obind] in E. injection E as _ _ <-.
          destruct (remove_other_spec b1 k l' ev' L1 ltac:(congruence) Er) as [_ [_ [_ [_ P3]]]]. rewrite allocated_app, L7. assumption.
      - cbn [cstep] in E. unfold ctStats in E. destruct (gc_all (t_buckets (s_ct s)) now) as [[[l' ev'] n] a] eqn:Eg. injection E as _ _ <-.
        destruct (gc_all_spec _ _ _ _ _ _ Eg) as [_ [_ [_ [_ [_ [G6 _]]]]]]; [|assumption].
        intros b Hb. apply In_znth in Hb. destruct Hb as [i Hi']. exact (v_wf _ _ _ _ _ I _ _ Hi'). }
    rewrite Ha, app_nil_r in P2. apply zlen_perm in P2. rewrite zlen_app in P2. rewrite Ha in C3. cbn [zlen length] in C3.
    unfold zlen in C3 at 2. cbn [length Z.of_nat] in C3. split; [pose proof (zlen_nonneg _ (freed_buckets ev)); lia|]. rewrite C1. lia.
  - exists t, ev. auto.
Qed.

Lemma lookup_op_ok : forall g tr s p ps now k, conf_ok g -> Inv g tr s (p :: ps) [] -> Bk g s -> held p = [] ->
  exists s' o ob, lookup_op s now k = Ok (s', o, ob) /\ Bk g s' /\
    (o = 0 /\ Inv g (tr ++ ob) s' (p :: ps) [] \/
     o <> 0 /\ Inv g (tr ++ ob) s' (p :: ps) [o] /\ o < s_next s' /\ (forall b, oget (s_objs s') o = Some b -> o_key b = k)).
Proof.
  intros g tr s p ps now k G I B Hp. unfold lookup_op.
  destruct (table_ok g tr s (p :: ps) (OLookup now k) G I) as [s1 [o [ob [E [I1 [Hn [B1 [t [ev [Ec Et]]]]]]]]]]; [intros; discriminate|].
  rewrite E. cbn [obind]. destruct (o =? 0) eqn:Eo.
  - exists s1, 0, ob. split; [reflexivity|]. split; [auto|]. left. auto.
  - cbn [cstep] in Ec. assert (Hne : o <> 0) by lia.
    destruct (lookup_tab _ _ _ _ _ _ (v_wf _ _ _ _ _ I) Ec Hne) as [c [Hc [Hk Hd]]]. rewrite <- Et in Hc.
    assert (Ha : exists b, oget (s_objs s1) o = Some b).
    { pose proof (v_ref _ _ _ _ _ I1 o) as R. rewrite cnt_app in R. pose proof (cnt_in _ _ (in_tab_stored _ _ Hc)) as Hc1. rewrite Hd in Hc1.
      pose proof (cnt_nonneg (flat_map held (p :: ps) ++ []) o). unfold rc in R. destruct (oget (s_objs s1) o); [eauto|lia]. }
    destruct Ha as [b Hb]. destruct (lock_ok _ _ _ _ _ _ _ I1 Hb) as [s2 [E2 [I2 [R1 [R2 R3]]]]]. rewrite E2. cbn [obind].
    exists s2, o, ob. split; [reflexivity|]. split; [destruct (B1 B) as [X Y]; split; rewrite ?R1, ?R3; assumption|]. right.
    split; [assumption|]. split; [assumption|]. split.
    + rewrite R2. apply (v_ids _ _ _ _ _ I1 _ _ Hb).
    + intros b2 Hb2. rewrite <- Hk. apply (v_entry _ _ _ _ _ I2); [rewrite R1; assumption|rewrite Hd; assumption].
Qed.
