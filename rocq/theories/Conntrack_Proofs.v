(** Proofs about the connection table. *)
From Coq Require Import Permutation.
From Verif Require Import Base Lists IpKey_Model Conntrack_Model Conntrack_Spec.

Lemma key_eqb_true : forall a b, key_eqb a b = true <-> a = b.
Proof. intros a b. unfold key_eqb. destruct (list_eq_dec Z.eq_dec a b); split; intro; congruence. Qed.
Lemma key_eqb_false : forall a b, key_eqb a b = false <-> a <> b.
Proof. intros a b. unfold key_eqb. destruct (list_eq_dec Z.eq_dec a b); split; intro; congruence. Qed.

(** ** One bucket *)
Definition occ (c : cent) : bool := negb (c_data c =? 0).
Definition bents (b : bucket) : list cent := filter occ (b_main b :: b_chain b).
Definition fresh (now : Z) (c : cent) : bool := negb (stale c now).

Record wfb (b : bucket) : Prop := {
  wf_nodup : NoDup (map c_key (b_chain b));
  wf_main : ~ In (c_key (b_main b)) (map c_key (b_chain b));
  wf_chain : forall c, In c (b_chain b) -> c_data c <> 0 }.

Lemma bucket_data_eq : forall b, bucket_data b = map c_data (bents b).
Proof.
  intro b. unfold bucket_data, bents. set (l := b_main b :: b_chain b). clearbody l.
  induction l as [|c l IH]; [reflexivity|]. cbn [map filter]. unfold occ at 1.
  destruct (negb (c_data c =? 0)); cbn [map]; rewrite IH; reflexivity.
Qed.

Lemma nodup_filter_keys : forall f l, NoDup (map c_key l) -> NoDup (map c_key (filter f l)).
Proof.
  intros f l. induction l as [|c l IH]; intro H; [constructor|]. cbn in H. apply NoDup_cons_iff in H. destruct H as [Ha Hb]. cbn.
  destruct (f c); [|auto]. cbn. constructor; [|auto]. intro Hi. apply Ha. apply in_map_iff in Hi.
  destruct Hi as [x [E Hx]]. apply filter_In in Hx. rewrite <- E. apply in_map. tauto.
Qed.

Lemma bents_keys_nodup : forall b, wfb b -> NoDup (map c_key (bents b)).
Proof. intros b [H1 H2 H3]. apply nodup_filter_keys. cbn. constructor; assumption. Qed.

Lemma nodup_key_inj : forall l c1 c2, NoDup (map c_key l) -> In c1 l -> In c2 l -> c_key c1 = c_key c2 -> c1 = c2.
Proof.
  induction l as [|c l IH]; intros c1 c2 H H1 H2 E; [destruct H1|]. cbn in H. apply NoDup_cons_iff in H. destruct H as [Ha Hb].
  destruct H1 as [->|H1], H2 as [->|H2]; auto.
  - exfalso. apply Ha. rewrite E. apply in_map. assumption.
  - exfalso. apply Ha. rewrite <- E. apply in_map. assumption.
Qed.

Lemma freed_data_app : forall a b, freed_data (a ++ b) = freed_data a ++ freed_data b.
Proof. induction a as [|[d|m|r] a IH]; intro b; cbn; [reflexivity|f_equal; auto|auto|auto]. Qed.
Lemma freed_buckets_app : forall a b, freed_buckets (a ++ b) = freed_buckets a ++ freed_buckets b.
Proof. induction a as [|[d|m|r] a IH]; intro b; cbn; [reflexivity|auto|f_equal; auto|auto]. Qed.
Lemma allocated_app : forall a b, allocated (a ++ b) = allocated a ++ allocated b.
Proof. induction a as [|[d|m|[r|]] a IH]; intro b; cbn; [reflexivity|auto|auto|f_equal; auto|auto]. Qed.

(** *** Garbage collection *)
Lemma gc_chain_spec : forall l now l' ev n, gc_chain l now = (l', ev, n) ->
  l' = filter (fresh now) l /\
  Permutation (map c_data (filter occ l)) (map c_data (filter occ l') ++ freed_data ev) /\
  Permutation (map c_mem l) (map c_mem l' ++ freed_buckets ev) /\ allocated ev = [].
Proof.
  induction l as [|e l IH]; intros now l' ev n H; cbn in H.
  - injection H as <- <- <-. cbn. auto.
  - destruct (gc_chain l now) as [[l1 ev1] n1] eqn:E. destruct (IH _ _ _ _ E) as [I1 [I2 [I3 I4]]].
    cbn [filter]. unfold fresh at 1. destruct (stale e now) eqn:Es; injection H as <- <- <-; cbn [negb].
    + split; [assumption|]. split.
      * unfold occ at 1. destruct (c_data e =? 0) eqn:Ed; cbn [negb app freed_data map]; [assumption|].
        rewrite I2. apply Permutation_middle.
      * split; [|destruct (c_data e =? 0); cbn; assumption].
        destruct (c_data e =? 0); cbn [app freed_buckets map]; rewrite I3; apply Permutation_middle.
    + split; [f_equal; assumption|]. split.
      * cbn [filter]. destruct (occ e); cbn [map app]; [constructor; assumption|assumption].
      * split; [cbn; constructor; assumption|assumption].
Qed.

Definition gcm (m : cent) (now : Z) : cent := fst (fst (gc_main m now)).
Lemma gc_main_spec : forall m now m' ev n, gc_main m now = (m', ev, n) ->
  c_key m' = c_key m /\ c_mem m' = c_mem m /\
  filter occ [m'] = filter (fresh now) (filter occ [m]) /\
  Permutation (map c_data (filter occ [m])) (map c_data (filter occ [m']) ++ freed_data ev) /\
  freed_buckets ev = [] /\ allocated ev = [] /\ gc_main m' now = (m', [], 0).
Proof.
  intros m now m' ev n H. unfold gc_main in H. cbn [filter].
  destruct (c_data m =? 0) eqn:E; cbn [negb andb] in H.
  - injection H as <- <- <-. unfold occ. rewrite E. cbn. unfold gc_main. rewrite E. cbn. auto 10.
  - destruct (stale m now) eqn:Es; injection H as <- <- <-.
    + unfold occ. rewrite E. cbn. unfold fresh. rewrite Es. cbn. auto 10.
    + unfold occ. rewrite E. cbn. unfold fresh. rewrite Es. cbn.
      unfold gc_main. rewrite E, Es. cbn. auto 10.
Qed.

Lemma bents_split : forall m l, bents (mkBucket m l) = filter occ [m] ++ filter occ l.
Proof. intros m l. unfold bents. cbn. destruct (occ m); reflexivity. Qed.

Lemma filter_comm : forall (A : Type) (f g : A -> bool) l, filter f (filter g l) = filter g (filter f l).
Proof.
  intros A f g l. induction l as [|x l IH]; [reflexivity|]. cbn.
  destruct (g x) eqn:Eg, (f x) eqn:Ef; cbn; rewrite ?Eg, ?Ef; try (f_equal; exact IH); exact IH.
Qed.

Lemma bucketGC_spec : forall b now b' ev n a, bucketGC b now = (b', ev, n, a) -> wfb b ->
  wfb b' /\ c_key (b_main b') = c_key (b_main b) /\
  bents b' = filter (fresh now) (bents b) /\
  b_chain b' = filter (fresh now) (b_chain b) /\
  a = zlen (bents b') /\
  Permutation (bucket_data b) (bucket_data b' ++ freed_data ev) /\
  Permutation (map c_mem (b_chain b)) (map c_mem (b_chain b') ++ freed_buckets ev) /\ allocated ev = [].
Proof.
  intros [m l] now b' ev n a H W. unfold bucketGC in H. cbn [b_main b_chain] in H.
  destruct (gc_main m now) as [[m' ev1] n1] eqn:E1. destruct (gc_chain l now) as [[l' ev2] n2] eqn:E2.
  injection H as <- <- <- <-.
  destruct (gc_main_spec _ _ _ _ _ E1) as [M1 [M2 [M3 [M4 [M5 [M6 M7]]]]]].
  destruct (gc_chain_spec _ _ _ _ _ E2) as [C1 [C2 [C3 C4]]].
  destruct W as [W1 W2 W3]. cbn [b_main b_chain] in *.
  assert (Hocc : filter occ l' = l').
  { subst l'. rewrite filter_comm. f_equal. clear - W3. induction l as [|c l IH]; [reflexivity|]. cbn.
    unfold occ at 1. destruct (c_data c =? 0) eqn:E; [exfalso; apply (W3 c); [left; reflexivity|lia]|].
    cbn. f_equal. apply IH. intros; apply W3; right; assumption. }
  split; [constructor; cbn [b_main b_chain]|].
  - subst l'. apply nodup_filter_keys. assumption.
  - rewrite M1. subst l'. intro Hi. apply W2. apply in_map_iff in Hi. destruct Hi as [x [Ex Hx]].
    apply filter_In in Hx. rewrite <- Ex. apply in_map. tauto.
  - subst l'. intros c Hc. apply filter_In in Hc. apply W3. tauto.
  - split; [assumption|]. split.
    { rewrite !bents_split, filter_app, M3. f_equal. subst l'. apply filter_comm. }
    split; [assumption|]. split.
    { rewrite bents_split, Hocc. cbn [filter]. unfold occ. unfold zlen. rewrite app_length.
      destruct (c_data m' =? 0); cbn [negb length]; lia. }
    split.
    { rewrite !bucket_data_eq, !bents_split, !map_app, freed_data_app. rewrite M4, C2.
      rewrite <- !app_assoc. apply Permutation_app_head. rewrite !app_assoc. apply Permutation_app_tail.
      apply Permutation_app_comm. }
    split; [rewrite freed_buckets_app, M5; assumption|]. rewrite allocated_app, M6. assumption.
Qed.

Lemma lookupBucket_spec : forall b now b' ev n, lookupBucket b now = (b', ev, n) -> wfb b ->
  wfb b' /\ c_key (b_main b') = c_key (b_main b) /\
  bents b' = filter (fresh now) (bents b) /\
  b_chain b' = filter (fresh now) (b_chain b) /\
  Permutation (bucket_data b) (bucket_data b' ++ freed_data ev) /\
  Permutation (map c_mem (b_chain b)) (map c_mem (b_chain b') ++ freed_buckets ev) /\ allocated ev = [].
Proof.
  intros [m l] now b' ev n H W. unfold lookupBucket in H. cbn [b_main b_chain] in H.
  destruct (gc_main m now) as [[m' ev1] n1] eqn:E1.
  destruct (gc_main_spec _ _ _ _ _ E1) as [M1 [M2 [M3 [M4 [M5 [M6 M7]]]]]].
  destruct l as [|c l].
  - injection H as <- <- <-. destruct W as [W1 W2 W3]. cbn [b_main b_chain] in *.
    split; [constructor; cbn; auto; constructor|]. split; [assumption|]. split.
    { rewrite !bents_split, !app_nil_r. assumption. }
    split; [reflexivity|]. split; [rewrite !bucket_data_eq, !bents_split, !app_nil_r; assumption|].
    cbn. rewrite M5. auto.
  - destruct (bucketGC (mkBucket m' (c :: l)) now) as [[[b2 ev2] n2] a] eqn:E2. injection H as <- <- <-.
    assert (W' : wfb (mkBucket m' (c :: l))).
    { destruct W as [W1 W2 W3]. cbn [b_main b_chain] in *. constructor; cbn [b_main b_chain]; auto. rewrite M1. assumption. }
    destruct (bucketGC_spec _ _ _ _ _ _ E2 W') as [G1 [G2 [G3 [G4 [G5 [G6 [G7 G8]]]]]]]. cbn [b_main b_chain] in *.
    split; [assumption|]. split; [congruence|]. split.
    { rewrite G3, !bents_split, !filter_app, M3. f_equal.
      generalize (filter occ [m]). intro x. clear. induction x as [|y x IH]; [reflexivity|]. cbn.
      destruct (fresh now y) eqn:E; cbn; rewrite ?E; congruence. }
    split; [assumption|]. split.
    { rewrite freed_data_app. rewrite (Permutation_app_comm (freed_data ev1)). rewrite app_assoc, <- G6.
      rewrite !bucket_data_eq, !bents_split, !map_app, M4. rewrite <- !app_assoc. apply Permutation_app_head.
      apply Permutation_app_comm. }
    split; [rewrite freed_buckets_app, M5; assumption|]. rewrite allocated_app, M6. assumption.
Qed.

(** *** Searching *)
Lemma hit_iff : forall k c, hit k c = true <-> occ c = true /\ c_key c = k.
Proof. intros k c. unfold hit, occ. rewrite andb_true_iff, key_eqb_true. intuition. Qed.

Lemma touch_none : forall l k now, touch l k now = None -> forall c, In c (filter occ l) -> c_key c <> k.
Proof.
  induction l as [|e l IH]; intros k now H c Hc; [destruct Hc|]. cbn in H.
  destruct (hit k e) eqn:Eh; [discriminate|]. destruct (touch l k now) as [[r d]|] eqn:Et; [discriminate|].
  cbn in Hc. destruct (occ e) eqn:Eo; [destruct Hc as [<-|Hc]|]; eauto.
  intro He. assert (hit k e = true) by (apply hit_iff; auto). congruence.
Qed.

Lemma touch_some : forall l k now l' d, touch l k now = Some (l', d) ->
  exists a c r, l = a ++ c :: r /\ l' = a ++ set_ref c now :: r /\ occ c = true /\ c_key c = k /\ d = c_data c.
Proof.
  induction l as [|e l IH]; intros k now l' d H; [discriminate|]. cbn in H.
  destruct (hit k e) eqn:Eh.
  - injection H as <- <-. apply hit_iff in Eh. exists [], e, l. cbn. intuition.
  - destruct (touch l k now) as [[r d']|] eqn:Et; [|discriminate]. injection H as <- <-.
    destruct (IH _ _ _ _ Et) as [a [c [r' [-> [-> R]]]]]. exists (e :: a), c, r'. cbn. auto.
Qed.

Lemma search_none : forall b k now, search b k now = None -> forall c, In c (bents b) -> c_key c <> k.
Proof.
  intros b k now H. unfold search in H. apply (touch_none _ k now).
  destruct (touch (b_main b :: b_chain b) k now) as [[[|m l] d]|] eqn:E; try discriminate; [|reflexivity].
  apply touch_some in E. destruct E as [a [c [r [_ [E _]]]]]. destruct a; discriminate.
Qed.

Lemma occ_set_ref : forall c now, occ (set_ref c now) = occ c.
Proof. reflexivity. Qed.

Lemma search_some : forall b k now b' d, search b k now = Some (b', d) -> wfb b ->
  wfb b' /\ bucket_data b' = bucket_data b /\ map c_mem (b_chain b') = map c_mem (b_chain b) /\
  exists c, In c (bents b) /\ c_key c = k /\ d = c_data c /\ d <> 0 /\
    forall c', In c' (bents b') <-> (In c' (bents b) /\ c_key c' <> k) \/ c' = set_ref c now.
Proof.
  intros b k now b' d H W. unfold search in H.
  destruct (touch (b_main b :: b_chain b) k now) as [[[|m l] d']|] eqn:E; try discriminate.
  injection H as <- <-. destruct (touch_some _ _ _ _ _ E) as [a [c [r [E1 [E2 [E3 [E4 E5]]]]]]].
  assert (Hk : map c_key (m :: l) = map c_key (b_main b :: b_chain b)) by (rewrite E1, E2, !map_app; reflexivity).
  assert (Hm : map c_mem (m :: l) = map c_mem (b_main b :: b_chain b)) by (rewrite E1, E2, !map_app; reflexivity).
  assert (Hd : map c_data (m :: l) = map c_data (b_main b :: b_chain b)) by (rewrite E1, E2, !map_app; reflexivity).
  cbn in Hk, Hm, Hd. injection Hk as Hk1 Hk2. injection Hm as Hm1 Hm2. injection Hd as Hd1 Hd2.
  pose proof (bents_keys_nodup b W) as Hn.
  split.
  { destruct W as [W1 W2 W3]. constructor; cbn [b_main b_chain]; [rewrite Hk2; assumption|rewrite Hk1, Hk2; assumption|].
    intros x Hx. assert (Hi : In (c_data x) (map c_data (b_chain b))) by (rewrite <- Hd2; apply in_map; assumption).
    apply in_map_iff in Hi. destruct Hi as [y [Ey Hy]]. rewrite <- Ey. apply W3. assumption. }
  split; [unfold bucket_data; cbn [b_main b_chain map]; rewrite Hd1, Hd2; reflexivity|]. split; [assumption|].
  assert (B : bents b = filter occ a ++ c :: filter occ r).
  { unfold bents. rewrite E1, filter_app. cbn [filter]. rewrite E3. reflexivity. }
  assert (B' : bents (mkBucket m l) = filter occ a ++ set_ref c now :: filter occ r).
  { unfold bents. cbn [b_main b_chain]. rewrite E2, filter_app. cbn [filter]. rewrite occ_set_ref, E3. reflexivity. }
  exists c. split; [rewrite B; apply in_elt|]. split; [assumption|]. split; [assumption|].
  split; [subst d'; unfold occ in E3; destruct (c_data c =? 0) eqn:Ez; [discriminate|lia]|].
  rewrite B in Hn. rewrite map_app in Hn. cbn [map] in Hn. pose proof (NoDup_remove_2 _ _ _ Hn) as Hni.
  intro c'. rewrite B', B. rewrite !in_app_iff. cbn [In].
  assert (Hne : In c' (filter occ a) \/ In c' (filter occ r) -> c_key c' <> k).
  { intros Hi He. apply Hni. apply in_or_app. rewrite E4, <- He.
    destruct Hi as [Hi|Hi]; [left|right]; apply in_map; assumption. }
  split.
  - intros [Hi|[<-|Hi]]; [left; split; [auto|apply Hne; auto]|right; reflexivity|left; split; [auto|apply Hne; auto]].
  - intros [[[Hi|[<-|Hi]] Hk']| ->]; auto. contradiction.
Qed.

(** *** Insertion and removal in a bucket *)
Lemma insert_main_spec : forall b k now ttl d mem, wfb b -> c_data (b_main b) = 0 -> d <> 0 ->
  (forall c, In c (bents b) -> c_key c <> k) ->
  let b' := mkBucket (mkCent k d now ttl mem) (b_chain b) in
  wfb b' /\ bents b' = mkCent k d now ttl mem :: bents b.
Proof.
  intros [m l] k now ttl d mem [W1 W2 W3] Hm Hd Hk. cbn [b_main b_chain] in *. split.
  - constructor; cbn [b_main b_chain c_key]; auto. intro Hi. apply in_map_iff in Hi. destruct Hi as [x [Ex Hx]].
    apply (Hk x); [|assumption]. unfold bents. cbn [b_main b_chain filter].
    assert (Hin : In x (filter occ l)).
    { apply filter_In. split; [assumption|]. unfold occ. specialize (W3 x Hx). destruct (c_data x =? 0) eqn:E; [lia|reflexivity]. }
    destruct (occ m); [right|]; assumption.
  - unfold bents. cbn [b_main b_chain filter]. unfold occ at 1. cbn [c_data].
    destruct (d =? 0) eqn:E; [lia|]. cbn [negb]. f_equal. unfold occ at 2. rewrite Hm. reflexivity.
Qed.

Lemma insert_chain_spec : forall b k now ttl d mem, wfb b -> c_data (b_main b) <> 0 -> d <> 0 ->
  (forall c, In c (bents b) -> c_key c <> k) ->
  let b' := mkBucket (b_main b) (mkCent k d now ttl mem :: b_chain b) in
  wfb b' /\ (forall c, In c (bents b') <-> c = mkCent k d now ttl mem \/ In c (bents b)) /\
  Permutation (d :: bucket_data b) (bucket_data b').
Proof.
  intros [m l] k now ttl d mem [W1 W2 W3] Hm Hd Hk. cbn [b_main b_chain] in *.
  assert (Hom : occ m = true) by (unfold occ; destruct (c_data m =? 0) eqn:E; [lia|reflexivity]).
  assert (Hod : occ (mkCent k d now ttl mem) = true) by (unfold occ; cbn; destruct (d =? 0) eqn:E; [lia|reflexivity]).
  assert (Hcl : forall x, In x l -> c_key x <> k).
  { intros x Hx. apply Hk. unfold bents. cbn [b_main b_chain filter]. rewrite Hom. right. apply filter_In.
    split; [assumption|]. unfold occ. specialize (W3 x Hx). destruct (c_data x =? 0) eqn:E; [lia|reflexivity]. }
  assert (Hmk : c_key m <> k) by (apply Hk; unfold bents; cbn [b_main b_chain filter]; rewrite Hom; left; reflexivity).
  split; [|split].
  - constructor; cbn [b_main b_chain map c_key].
    + constructor; [|assumption]. intro Hi. apply in_map_iff in Hi. destruct Hi as [x [Ex Hx]]. apply (Hcl x); assumption.
    + intros [Hi|Hi]; [congruence|contradiction].
    + intros c [<-|Hc]; [assumption|auto].
  - intro c. unfold bents. cbn [b_main b_chain filter]. rewrite Hom, Hod. cbn [In]. intuition.
  - rewrite !bucket_data_eq. unfold bents. cbn [b_main b_chain filter]. rewrite Hom, Hod. cbn [map c_data]. constructor.
Qed.

Lemma remove_main_spec : forall b k, wfb b -> c_key (b_main b) = k ->
  let b' := mkBucket (set_data (b_main b) 0) (b_chain b) in
  wfb b' /\ (forall c, In c (bents b') <-> In c (bents b) /\ c_key c <> k) /\
  bucket_data b = (if c_data (b_main b) =? 0 then [] else [c_data (b_main b)]) ++ bucket_data b'.
Proof.
  intros [m l] k [W1 W2 W3] Hk. cbn [b_main b_chain] in *. split; [constructor; cbn; auto|]. split.
  - intro c. unfold bents. cbn [b_main b_chain filter]. change (occ (set_data m 0)) with false. cbv iota.
    split.
    + intro Hc. pose proof Hc as Hc'. apply filter_In in Hc'. split; [destruct (occ m); [right|]; assumption|].
      intro He. apply W2. rewrite Hk, <- He. apply in_map. tauto.
    + intros [Hc Hne]. destruct (occ m); [destruct Hc as [<-|Hc]; [contradiction|]|]; assumption.
  - unfold bucket_data. cbn [b_main b_chain map filter]. change (negb (c_data (set_data m 0) =? 0)) with false. cbv iota.
    destruct (c_data m =? 0); reflexivity.
Qed.

Lemma remove_chain_spec : forall l k l' ev, remove_chain l k = (l', ev) -> NoDup (map c_key l) ->
  (forall c, In c l -> c_data c <> 0) ->
  (forall c, In c l' <-> In c l /\ c_key c <> k) /\ NoDup (map c_key l') /\
  Permutation (map c_data l) (map c_data l' ++ freed_data ev) /\
  Permutation (map c_mem l) (map c_mem l' ++ freed_buckets ev) /\ allocated ev = [].
Proof.
  induction l as [|e l IH]; intros k l' ev H Hn Hd; cbn in H.
  - injection H as <- <-. cbn. intuition.
  - cbn in Hn. apply NoDup_cons_iff in Hn. destruct Hn as [Ha Hb].
    destruct (key_eqb k (c_key e)) eqn:Ek.
    + apply key_eqb_true in Ek. injection H as <- <-.
      destruct (c_data e =? 0) eqn:E; [exfalso; apply (Hd e); [left; reflexivity|lia]|].
      split; [|split; [assumption|]].
      * intro c. cbn. split.
        -- intro Hc. split; [auto|]. intro He. apply Ha. rewrite <- Ek, <- He. apply in_map. assumption.
        -- intros [[<-|Hc] Hne]; [congruence|assumption].
      * cbn [app freed_data freed_buckets map allocated]. split; [apply Permutation_cons_append|]. split; [apply Permutation_cons_append|reflexivity].
    + apply key_eqb_false in Ek. destruct (remove_chain l k) as [r' ev'] eqn:E. injection H as <- <-.
      destruct (IH _ _ _ E Hb) as [I1 [I2 [I3 [I4 I5]]]]; [intros; apply Hd; right; assumption|].
      split; [|split; [|split; [|split; [|assumption]]]].
      * intro c. cbn. rewrite I1. split; [intros [<-|[Hc Hne]]; [split; [auto|congruence]|auto]|].
        intros [[<-|Hc] Hne]; [auto|right; auto].
      * cbn. constructor; [|assumption]. intro Hi. apply Ha. apply in_map_iff in Hi. destruct Hi as [x [Ex Hx]].
        apply I1 in Hx. rewrite <- Ex. apply in_map. tauto.
      * cbn. constructor. assumption.
      * cbn. constructor. assumption.
Qed.

Lemma filter_occ_chain : forall b, wfb b -> filter occ (b_chain b) = b_chain b.
Proof.
  intros b [_ _ W3]. revert W3. generalize (b_chain b). intro l. induction l as [|c l IH]; intro W; [reflexivity|]. cbn.
  unfold occ at 1. destruct (c_data c =? 0) eqn:E; [exfalso; apply (W c); [left; reflexivity|lia]|].
  cbn. f_equal. apply IH. intros; apply W; right; assumption.
Qed.

Lemma remove_other_spec : forall b k l' ev, wfb b -> c_key (b_main b) <> k -> remove_chain (b_chain b) k = (l', ev) ->
  let b' := mkBucket (b_main b) l' in
  wfb b' /\ (forall c, In c (bents b') <-> In c (bents b) /\ c_key c <> k) /\
  Permutation (bucket_data b) (bucket_data b' ++ freed_data ev) /\
  Permutation (map c_mem (b_chain b)) (map c_mem l' ++ freed_buckets ev) /\ allocated ev = [].
Proof.
  intros b k l' ev W Hm H b'. destruct (remove_chain_spec _ _ _ _ H (wf_nodup b W) (wf_chain b W)) as [R1 [R2 [R3 [R4 R5]]]].
  assert (W' : wfb b').
  { constructor; cbn [b_main b_chain]; [assumption| |].
    - intro Hi. apply (wf_main b W). apply in_map_iff in Hi. destruct Hi as [x [Ex Hx]]. apply R1 in Hx. subst b'. cbn in Ex. rewrite <- Ex. apply in_map. tauto.
    - intros c Hc. apply (wf_chain b W). apply R1 in Hc. tauto. }
  split; [assumption|]. split; [|split; [|auto]].
  - intro c. subst b'. destruct b as [m l]. rewrite !bents_split. cbn [b_main b_chain] in *.
    pose proof (filter_occ_chain _ W) as F1. pose proof (filter_occ_chain _ W') as F2. cbn [b_chain] in F1, F2.
    rewrite F1, F2. rewrite !in_app_iff, R1. cbn [filter]. destruct (occ m); cbn [In]; intuition. subst; auto.
  - rewrite !bucket_data_eq. subst b'. destruct b as [m l]. rewrite !bents_split. cbn [b_main b_chain] in *.
    pose proof (filter_occ_chain _ W) as F1. pose proof (filter_occ_chain _ W') as F2. cbn [b_chain] in F1, F2.
    rewrite F1, F2, !map_app, <- app_assoc. apply Permutation_app_head. assumption.
Qed.

(** ** The table *)
Definition ent_of (c : cent) : ent := mkEnt (c_data c) (c_ref c) (c_ttl c).
Definition in_tab (t : ct) (c : cent) : Prop := exists i b, znth (t_buckets t) i = Some b /\ In c (bents b).

Record inv (size now : Z) (t : ct) : Prop := {
  i_len : zlen (t_buckets t) = size;
  i_pos : 0 < size;
  i_wf : forall i b, znth (t_buckets t) i = Some b -> wfb b;
  i_slot : forall i b c, znth (t_buckets t) i = Some b -> In c (bents b) -> djb2 (c_key c) mod size = i;
  i_time : forall i b c, znth (t_buckets t) i = Some b -> In c (bents b) -> 0 <= c_ref c <= now /\ 0 <= c_ttl c < two64 }.

Definition rel (now : Z) (t : ct) (m : cmap) : Prop :=
  (forall c, in_tab t c -> m (c_key c) = Some (ent_of c)) /\
  (forall k e, m k = Some e -> now - e_last e <= e_ttl e -> exists c, in_tab t c /\ c_key c = k /\ ent_of c = e).

Lemma inv_later : forall size now now' t, inv size now t -> now <= now' -> inv size now' t.
Proof.
  intros size now now' t [I1 I2 I3 I4 I5] H. constructor; auto.
  intros i b c Hb Hc. specialize (I5 i b c Hb Hc). lia.
Qed.
Lemma rel_later : forall now now' t m, rel now t m -> now <= now' -> rel now' t m.
Proof. intros now now' t m [R1 R2] H. split; [assumption|]. intros k e Hk He. apply R2; [assumption|lia]. Qed.

Lemma stale_fresh : forall c now, 0 <= c_ref c <= now -> now < two64 ->
  fresh now c = true <-> now - c_ref c <= c_ttl c.
Proof.
  intros c now H Hn. unfold fresh, stale, u64. rewrite Z.mod_small by lia.
  destruct (c_ttl c <? now - c_ref c) eqn:E; cbn; split; intro; try discriminate; lia.
Qed.

Lemma upd_tab : forall t i b b' s c, znth (t_buckets t) i = Some b ->
  in_tab (mkCt (zupd (t_buckets t) i b') s) c <->
  (exists j b1, j <> i /\ znth (t_buckets t) j = Some b1 /\ In c (bents b1)) \/ In c (bents b').
Proof.
  intros t i b b' s c Hb. unfold in_tab. cbn [t_buckets].
  pose proof (znth_some_range _ _ _ _ Hb) as Hr. split.
  - intros [j [b1 [Hj Hc]]]. destruct (Z.eq_dec j i) as [->|Hne].
    + rewrite znth_zupd_eq in Hj by assumption. injection Hj as <-. right. assumption.
    + rewrite znth_zupd_neq in Hj by congruence. left. eauto.
  - intros [[j [b1 [Hne [Hj Hc]]]]|Hc].
    + exists j, b1. rewrite znth_zupd_neq by congruence. auto.
    + exists i, b'. rewrite znth_zupd_eq by assumption. auto.
Qed.

Lemma upd_inv : forall size now t i b b' s, inv size now t -> znth (t_buckets t) i = Some b -> wfb b' ->
  (forall c, In c (bents b') -> djb2 (c_key c) mod size = i /\ 0 <= c_ref c <= now /\ 0 <= c_ttl c < two64) ->
  inv size now (mkCt (zupd (t_buckets t) i b') s).
Proof.
  intros size now t i b b' s [I1 I2 I3 I4 I5] Hb W H. pose proof (znth_some_range _ _ _ _ Hb) as Hr.
  constructor; cbn [t_buckets]; [rewrite zlen_zupd; assumption|assumption| | |].
  - intros j b1 Hj. destruct (Z.eq_dec j i) as [->|Hne].
    + rewrite znth_zupd_eq in Hj by assumption. injection Hj as <-. assumption.
    + rewrite znth_zupd_neq in Hj by congruence. eauto.
  - intros j b1 c Hj Hc. destruct (Z.eq_dec j i) as [->|Hne].
    + rewrite znth_zupd_eq in Hj by assumption. injection Hj as <-. apply H. assumption.
    + rewrite znth_zupd_neq in Hj by congruence. eauto.
  - intros j b1 c Hj Hc. destruct (Z.eq_dec j i) as [->|Hne].
    + rewrite znth_zupd_eq in Hj by assumption. injection Hj as <-. apply H. assumption.
    + rewrite znth_zupd_neq in Hj by congruence. eauto.
Qed.

Lemma slot_ok : forall size now t k, inv size now t ->
  slot (t_buckets t) k = Ok (djb2 k mod size) /\
  exists b, znth (t_buckets t) (djb2 k mod size) = Some b /\ aget (t_buckets t) (djb2 k mod size) = Ok b.
Proof.
  intros size now t k [I1 I2 _ _ _]. unfold slot. rewrite I1. destruct (size =? 0) eqn:E; [lia|]. split; [reflexivity|].
  destruct (znth_in_range _ (t_buckets t) (djb2 k mod size)) as [b Hb].
  - rewrite I1. apply Z.mod_pos_bound. assumption.
  - exists b. split; [assumption|]. apply aget_ok. assumption.
Qed.

(** Garbage collection of one bucket does not change what can be found. *)
Lemma gc_step : forall size now t k m b b1 ev n s, inv size now t -> now < two64 -> rel now t m ->
  znth (t_buckets t) (djb2 k mod size) = Some b -> lookupBucket b now = (b1, ev, n) ->
  let t1 := mkCt (zupd (t_buckets t) (djb2 k mod size) b1) s in
  inv size now t1 /\ rel now t1 m /\ wfb b1 /\
  znth (t_buckets t1) (djb2 k mod size) = Some b1 /\
  (forall b' , zupd (t_buckets t1) (djb2 k mod size) b' = zupd (t_buckets t) (djb2 k mod size) b') /\
  (forall c, In c (bents b1) -> now - c_ref c <= c_ttl c).
Proof.
  intros size now t k m b b1 ev n s I Hn R Hb HL t1. set (i := djb2 k mod size) in *.
  destruct (lookupBucket_spec _ _ _ _ _ HL (i_wf _ _ _ I _ _ Hb)) as [L1 [L2 [L3 [L4 _]]]].
  pose proof (znth_some_range _ _ _ _ Hb) as Hr.
  assert (Hsub : forall c, In c (bents b1) <-> In c (bents b) /\ now - c_ref c <= c_ttl c).
  { intro c. rewrite L3, filter_In. split; intros [H1 H2]; (split; [assumption|]);
      apply (stale_fresh c now); auto; apply (i_time _ _ _ I _ _ _ Hb H1). }
  split.
  { apply (upd_inv size now t i b); auto. intros c Hc. apply Hsub in Hc. destruct Hc as [Hc _].
    split; [apply (i_slot _ _ _ I _ _ _ Hb Hc)|apply (i_time _ _ _ I _ _ _ Hb Hc)]. }
  split.
  { destruct R as [R1 R2]. split.
    - intros c Hc. apply R1. apply (upd_tab t i b b1 s c Hb) in Hc. destruct Hc as [[j [b2 [_ [Hj Hc]]]]|Hc].
      + exists j, b2. auto.
      + exists i, b. apply Hsub in Hc. tauto.
    - intros k' e Hk He. destruct (R2 k' e Hk He) as [c [Hc [Hck Hce]]]. exists c. split; [|auto].
      apply (upd_tab t i b b1 s c Hb). destruct Hc as [j [b2 [Hj Hc]]]. destruct (Z.eq_dec j i) as [->|Hne]; [|left; eauto].
      right. assert (b2 = b) by congruence. subst b2. apply Hsub. split; [assumption|]. rewrite <- Hce in He. exact He. }
  split; [assumption|]. split; [subst t1; cbn; apply znth_zupd_eq; assumption|]. split.
  { intro b'. subst t1. cbn [t_buckets]. apply znth_ext; [rewrite !zlen_zupd; reflexivity|].
    intros j Hj. rewrite !zlen_zupd in Hj. destruct (Z.eq_dec j i) as [->|Hne].
    - rewrite !znth_zupd_eq; auto. rewrite zlen_zupd. assumption.
    - rewrite !znth_zupd_neq by congruence. reflexivity. }
  intros c Hc. apply Hsub in Hc. tauto.
Qed.

Lemma tab_slot : forall size now t c k, inv size now t -> in_tab t c -> c_key c = k ->
  exists b, znth (t_buckets t) (djb2 k mod size) = Some b /\ In c (bents b).
Proof.
  intros size now t c k I [i [b [Hb Hc]]] E. pose proof (i_slot _ _ _ I _ _ _ Hb Hc) as Hs. rewrite E in Hs. subst i. eauto.
Qed.

(** Presence in the right bucket is being live in the map. *)
Lemma live_iff : forall size now t m k b, inv size now t -> rel now t m ->
  znth (t_buckets t) (djb2 k mod size) = Some b -> (forall c, In c (bents b) -> now - c_ref c <= c_ttl c) ->
  (forall c, In c (bents b) -> c_key c = k -> live m now k (ent_of c)) /\
  ((forall c, In c (bents b) -> c_key c <> k) -> absent m now k).
Proof.
  intros size now t m k b I [R1 R2] Hb Hf. split.
  - intros c Hc Hk. split; [rewrite <- Hk; apply R1; exists (djb2 k mod size), b; auto|]. cbn. auto.
  - intros H e [He1 He2]. destruct (R2 k e He1 He2) as [c [Hc [Hck _]]].
    destruct (tab_slot _ _ _ _ _ I Hc Hck) as [b' [Hb' Hc']]. assert (b' = b) by congruence. subst b'. exact (H c Hc' Hck).
Qed.

(** Replacing a bucket so that only the entries of key [k] change. *)
Lemma rel_upd : forall size now t m m' k b b' s, inv size now t -> rel now t m ->
  znth (t_buckets t) (djb2 k mod size) = Some b ->
  (forall c, c_key c <> k -> (In c (bents b') <-> In c (bents b))) ->
  (forall k', k' <> k -> m' k' = m k') ->
  (forall c, In c (bents b') -> c_key c = k -> m' k = Some (ent_of c)) ->
  (forall e, m' k = Some e -> now - e_last e <= e_ttl e -> exists c, In c (bents b') /\ c_key c = k /\ ent_of c = e) ->
  rel now (mkCt (zupd (t_buckets t) (djb2 k mod size) b') s) m'.
Proof.
  intros size now t m m' k b b' s I [R1 R2] Hb Ho Hm H1 H2. set (i := djb2 k mod size) in *. split.
  - intros c Hc. apply (upd_tab t i b b' s c Hb) in Hc. destruct Hc as [[j [b1 [Hne [Hj Hc]]]]|Hc].
    + assert (Hk : c_key c <> k).
      { intro E. apply Hne. rewrite <- (i_slot _ _ _ I _ _ _ Hj Hc), E. reflexivity. }
      rewrite Hm by assumption. apply R1. exists j, b1. auto.
    + destruct (list_eq_dec Z.eq_dec (c_key c) k) as [E|E]; [rewrite E; auto|].
      rewrite Hm by assumption. apply R1. exists i, b. split; [assumption|]. apply Ho; assumption.
  - intros k' e Hk He. destruct (list_eq_dec Z.eq_dec k' k) as [->|E].
    + destruct (H2 e Hk He) as [c [Hc R]]. exists c. split; [|assumption]. apply (upd_tab t i b b' s c Hb). auto.
    + rewrite Hm in Hk by assumption. destruct (R2 k' e Hk He) as [c [[j [b1 [Hj Hc]]] [Hck Hce]]]. exists c. split; [|auto].
      apply (upd_tab t i b b' s c Hb). destruct (Z.eq_dec j i) as [->|Hne]; [|left; eauto].
      right. apply Ho; [congruence|]. assert (b1 = b) by congruence. subst b1. assumption.
Qed.

Lemma put_other : forall m k e k', k' <> k -> put m k e k' = m k'.
Proof. intros m k e k' H. unfold put. destruct (list_eq_dec Z.eq_dec k k'); congruence. Qed.
Lemma put_same : forall m k e, put m k e k = Some e.
Proof. intros m k e. unfold put. destruct (list_eq_dec Z.eq_dec k k); congruence. Qed.
Lemma del_other : forall m k k', k' <> k -> del m k k' = m k'.
Proof. intros m k k' H. unfold del. destruct (list_eq_dec Z.eq_dec k k'); congruence. Qed.
Lemma del_same : forall m k, del m k k = None.
Proof. intros m k. unfold del. destruct (list_eq_dec Z.eq_dec k k); congruence. Qed.

Lemma set_ref_in : forall b k now c b', wfb b -> In c (bents b) -> c_key c = k ->
  (forall c', In c' (bents b') <-> (In c' (bents b) /\ c_key c' <> k) \/ c' = set_ref c now) ->
  (forall c', c_key c' <> k -> (In c' (bents b') <-> In c' (bents b))) /\
  (forall c', In c' (bents b') -> c_key c' = k -> c' = set_ref c now).
Proof.
  intros b k now c b' W Hc Hk H. split.
  - intros c' Hne. rewrite H. split; [intros [[Hi _]| ->]; [assumption|exfalso; apply Hne; exact Hk]|auto].
  - intros c' Hc' Hk'. apply H in Hc'. destruct Hc' as [[_ Hne]|E]; [contradiction|assumption].
Qed.

(** ** Each operation *)
Lemma lookup_step : forall size now t m k, inv size now t -> 0 <= now < two64 -> rel now t m ->
  exists t' v ev m', ctLookup t now k = Ok (t', v, ev) /\ spec_step m (OLookup now k) v m' /\
    inv size now t' /\ rel now t' m'.
Proof.
  intros size now t m k I Hn R. destruct (slot_ok size now t k I) as [Hs [b [Hb Hg]]].
  unfold ctLookup. rewrite Hs. cbn [obind]. rewrite Hg. cbn [obind].
  destruct (lookupBucket b now) as [[b1 ev] n] eqn:HL.
  destruct (gc_step size now t k m b b1 ev n (inc_lookups (gcs (t_stats t) n)) I ltac:(lia) R Hb HL) as [I1 [R1 [W1 [Hb1 [Hz Hf]]]]].
  destruct (live_iff _ _ _ _ _ _ I1 R1 Hb1 Hf) as [Hlive Habs].
  destruct (search b1 k now) as [[b' d]|] eqn:HS.
  - destruct (search_some _ _ _ _ _ HS W1) as [W' [_ [_ [c [Hc [Hk [Hd [_ Hin]]]]]]]]. subst d.
    destruct (set_ref_in b1 k now c b' W1 Hc Hk Hin) as [Ho Hone].
    do 4 eexists. split; [reflexivity|]. split; [apply (sp_hit m now k (ent_of c)); apply Hlive; assumption|].
    rewrite <- Hz. split.
    + apply (upd_inv size now _ _ b1); auto. intros c' Hc'. apply Hin in Hc'. destruct Hc' as [[Hc' _]| ->].
      * split; [apply (i_slot _ _ _ I1 _ _ _ Hb1 Hc')|apply (i_time _ _ _ I1 _ _ _ Hb1 Hc')].
      * cbn. split; [apply (i_slot _ _ _ I1 _ _ _ Hb1 Hc)|]. pose proof (i_time _ _ _ I1 _ _ _ Hb1 Hc). lia.
    + apply (rel_upd size now _ m _ k b1); auto.
      * intros k' Hk'. apply put_other. assumption.
      * intros c' Hc' Hk'. rewrite put_same, (Hone c' Hc' Hk'). reflexivity.
      * intros e He _. rewrite put_same in He. injection He as <-. exists (set_ref c now).
        split; [apply Hin; right; reflexivity|]. split; [assumption|reflexivity].
  - do 4 eexists. split; [reflexivity|]. split; [apply sp_miss; apply Habs; apply (search_none _ _ _ HS)|].
    split; assumption.
Qed.

Lemma insert_step : forall size now t m k ttl d al, inv size now t -> 0 <= now < two64 -> rel now t m -> 0 <= ttl < two64 ->
  exists t' v ev m', ctInsertWithTTL t now k ttl d al = Ok (t', v, ev) /\ spec_step m (OInsert now k ttl d al) v m' /\
    inv size now t' /\ rel now t' m'.
Proof.
  intros size now t m k ttl d al I Hn R Httl. unfold ctInsertWithTTL.
  destruct (d =? 0) eqn:Ed.
  { assert (d = 0) by lia. subst d. do 4 eexists. split; [reflexivity|]. split; [apply sp_null|]. auto. }
  assert (Hd : d <> 0) by lia.
  destruct (slot_ok size now t k I) as [Hs [b [Hb Hg]]]. rewrite Hs. cbn [obind]. rewrite Hg. cbn [obind].
  destruct (lookupBucket b now) as [[b1 ev] n] eqn:HL.
  destruct (gc_step size now t k m b b1 ev n (inc_inserts (gcs (t_stats t) n)) I ltac:(lia) R Hb HL) as [I1 [R1 [W1 [Hb1 [Hz Hf]]]]].
  destruct (live_iff _ _ _ _ _ _ I1 R1 Hb1 Hf) as [Hlive Habs].
  destruct (search b1 k now) as [[b' d']|] eqn:HS.
  - destruct (search_some _ _ _ _ _ HS W1) as [W' [_ [_ [c [Hc [Hk [_ [_ Hin]]]]]]]].
    destruct (set_ref_in b1 k now c b' W1 Hc Hk Hin) as [Ho Hone].
    do 4 eexists. split; [reflexivity|]. split; [apply (sp_busy m now k ttl d al (ent_of c) Hd); apply Hlive; assumption|].
    rewrite <- Hz. split.
    + apply (upd_inv size now _ _ b1); auto. intros c' Hc'. apply Hin in Hc'. destruct Hc' as [[Hc' _]| ->].
      * split; [apply (i_slot _ _ _ I1 _ _ _ Hb1 Hc')|apply (i_time _ _ _ I1 _ _ _ Hb1 Hc')].
      * cbn. split; [apply (i_slot _ _ _ I1 _ _ _ Hb1 Hc)|]. pose proof (i_time _ _ _ I1 _ _ _ Hb1 Hc). lia.
    + apply (rel_upd size now _ m _ k b1); auto.
      * intros k' Hk'. apply put_other. assumption.
      * intros c' Hc' Hk'. rewrite put_same, (Hone c' Hc' Hk'). reflexivity.
      * intros e He _. rewrite put_same in He. injection He as <-. exists (set_ref c now).
        split; [apply Hin; right; reflexivity|]. split; [assumption|reflexivity].
  - pose proof (search_none _ _ _ HS) as Hno.
    assert (Hfin : forall b' s' mem, wfb b' -> (forall c, In c (bents b') <-> c = mkCent k d now ttl mem \/ In c (bents b1)) ->
      let t' := mkCt (zupd (t_buckets t) (djb2 k mod size) b') s' in
      inv size now t' /\ rel now t' (put m k (mkEnt d now ttl))).
    { intros b' s' mem W' Hin t'. subst t'. rewrite <- Hz. split.
      - apply (upd_inv size now _ _ b1); auto. intros c' Hc'. apply Hin in Hc'. destruct Hc' as [->|Hc'].
        + cbn. split; [reflexivity|]. lia.
        + split; [apply (i_slot _ _ _ I1 _ _ _ Hb1 Hc')|apply (i_time _ _ _ I1 _ _ _ Hb1 Hc')].
      - apply (rel_upd size now _ m _ k b1); auto.
        + intros c Hne. rewrite Hin. split; [intros [->|H]; [exfalso; apply Hne; reflexivity|assumption]|auto].
        + intros k' Hk'. apply put_other. assumption.
        + intros c' Hc' Hk'. rewrite put_same. apply Hin in Hc'. destruct Hc' as [->|Hc']; [reflexivity|].
          exfalso. exact (Hno _ Hc' Hk').
        + intros e He _. rewrite put_same in He. injection He as <-. exists (mkCent k d now ttl mem).
          split; [apply Hin; left; reflexivity|]. split; reflexivity. }
    destruct (c_data (b_main b1) =? 0) eqn:Em.
    + destruct (insert_main_spec b1 k now ttl d (c_mem (b_main b1)) W1 ltac:(lia) Hd Hno) as [W' HB].
      do 4 eexists. split; [reflexivity|]. split; [apply sp_ins; [assumption|apply Habs; assumption]|].
      apply (Hfin _ _ (c_mem (b_main b1))); [assumption|]. intro c. rewrite HB. cbn. intuition.
    + destruct al as [mem|].
      * destruct (insert_chain_spec b1 k now ttl d mem W1 ltac:(lia) Hd Hno) as [W' [HB _]].
        do 4 eexists. split; [reflexivity|]. split; [apply sp_ins; [assumption|apply Habs; assumption]|].
        apply (Hfin _ _ mem); assumption.
      * do 4 eexists. split; [reflexivity|]. split; [apply sp_full; [assumption|apply Habs; assumption]|].
        split; [destruct I1 as [J1 J2 J3 J4 J5]; constructor; assumption|exact R1].
Qed.

Lemma remove_step : forall size now t m k, inv size now t -> 0 <= now < two64 -> rel now t m ->
  exists t' ev, ctRemove t now k = Ok (t', ev) /\ inv size now t' /\ rel now t' (del m k).
Proof.
  intros size now t m k I Hn R. destruct (slot_ok size now t k I) as [Hs [b [Hb Hg]]].
  unfold ctRemove. rewrite Hs. cbn [obind]. rewrite Hg. cbn [obind].
  destruct (lookupBucket b now) as [[b1 ev] n] eqn:HL.
  destruct (gc_step size now t k m b b1 ev n (gcs (t_stats t) n) I ltac:(lia) R Hb HL) as [I1 [R1 [W1 [Hb1 [Hz Hf]]]]].
  assert (Hfin : forall b', wfb b' -> (forall c, In c (bents b') <-> In c (bents b1) /\ c_key c <> k) ->
      let t' := mkCt (zupd (t_buckets t) (djb2 k mod size) b') (gcs (t_stats t) n) in
      inv size now t' /\ rel now t' (del m k)).
  { intros b' W' Hin t'. subst t'. rewrite <- Hz. split.
    - apply (upd_inv size now _ _ b1); auto. intros c' Hc'. apply Hin in Hc'. destruct Hc' as [Hc' _].
      split; [apply (i_slot _ _ _ I1 _ _ _ Hb1 Hc')|apply (i_time _ _ _ I1 _ _ _ Hb1 Hc')].
    - apply (rel_upd size now _ m _ k b1); auto.
      + intros c Hne. rewrite Hin. tauto.
      + intros k' Hk'. apply del_other. assumption.
      + intros c' Hc' Hk'. apply Hin in Hc'. tauto.
      + intros e He _. rewrite del_same in He. discriminate. }
  destruct (key_eqb k (c_key (b_main b1))) eqn:Ek.
  - apply key_eqb_true in Ek. destruct (remove_main_spec b1 k W1 (eq_sym Ek)) as [W' [Hin _]].
    do 2 eexists. split; [reflexivity|]. apply Hfin; assumption.
  - apply key_eqb_false in Ek. destruct (remove_chain (b_chain b1) k) as [l' ev'] eqn:Er.
    destruct (remove_other_spec b1 k l' ev' W1 ltac:(congruence) Er) as [W' [Hin _]].
    do 2 eexists. split; [reflexivity|]. apply Hfin; assumption.
Qed.
