(** Ownership of references to load-balancer objects (C43). *)
From Coq Require Import String Permutation.
From Verif Require Import Base Lists Cstr_Model IpKey_Model Maglev_Model Rangeset_Model Flow_Model Flow_Spec
  Flow_Proofs Flow2_Proofs Remote_Model FlowLb_Model FlowLb_Spec.
From Verif Require Frag_Model.

(** ** Counting *)
Lemma countb_app {A} (f : A -> bool) l m : countb f (l ++ m) = countb f l + countb f m.
Proof. unfold countb, zlen. rewrite filter_app, app_length. lia. Qed.
Lemma countb_cons {A} (f : A -> bool) x l : countb f (x :: l) = (if f x then 1 else 0) + countb f l.
Proof. unfold countb, zlen. cbn [filter]. destruct (f x); cbn [length]; lia. Qed.
Lemma countb_nil {A} (f : A -> bool) : countb f [] = 0.
Proof. reflexivity. Qed.
Lemma countb_perm {A} (f : A -> bool) l m : Permutation l m -> countb f l = countb f m.
Proof.
  induction 1.
  - reflexivity.
  - rewrite !countb_cons. lia.
  - rewrite !countb_cons. lia.
  - lia.
Qed.
Lemma countb_in {A} (f : A -> bool) l x : In x l -> f x = true -> 0 < countb f l.
Proof.
  intros I H. pose proof (countb_nonneg _ f l). destruct (Z.eq_dec (countb f l) 0) as [E|E]; [|lia].
  rewrite (countb_zero _ f l E x I) in H. discriminate.
Qed.
Lemma countb_ext {A} (f g : A -> bool) l : (forall x, In x l -> f x = g x) -> countb f l = countb g l.
Proof.
  induction l as [|x l IH]; intros H; auto. rewrite !countb_cons, (H x) by (left; auto). rewrite IH; auto. intros; apply H; right; auto.
Qed.

(** ** Tokens: what the threads owe *)
Inductive token := Hold (a : Z) | Dying (a : Z) | Gone (a : Z).
Definition isHold (a : Z) (t : token) : bool := match t with Hold b => b =? a | _ => false end.
Definition isGone (a : Z) (t : token) : bool := match t with Gone b => b =? a | _ => false end.
Definition isEnd (a : Z) (t : token) : bool := match t with Dying b => b =? a | Gone b => b =? a | _ => false end.

Definition refs (set : list frec) (own : list token) (a : Z) : Z :=
  countb (fun f => f_ref f =? a) set + countb (isHold a) own.

(** The flow set: names unique, companions have no object *)
Record good_set (set : list frec) : Prop := mkGS {
  gs_names : NoDup (names set);
  gs_own : forall f, In f set -> own_name (f_name f) -> f_ref f <> 0;
  gs_comp : forall f, In f set -> ~ own_name (f_name f) -> f_ref f = 0;
  gs_udp : forall f, In f set -> f_ref f <> 0 -> f_udpencap f <> 0 ->
    match f_protocols f with None => true | Some l => existsb (Z.eqb 17) l end = false }.

Record inv (s : state) (own : list token) : Prop := mkInv {
  i_ref : forall a o, deref s a = Some o -> lb_ref o = refs (t_set s) own a;
  i_live : forall a, a <> 0 -> 0 < refs (t_set s) own a -> live s a;
  i_end1 : forall a, live s a -> refs (t_set s) own a = 0 -> countb (isEnd a) own = 1;
  i_end0 : forall a, 0 < countb (isEnd a) own -> live s a /\ refs (t_set s) own a = 0;
  i_list : forall a, In a (t_list s) <-> live s a /\ countb (isGone a) own = 0;
  i_nodup : NoDup (t_list s);
  i_set : good_set (t_set s) }.

Lemma own_name_dec n : {own_name n} + {~ own_name n}.
Proof.
  destruct n as [|c n]; [left; intros r; discriminate|].
  destruct (Z.eq_dec c 35) as [->|N]; [right; intros H; apply (H n); auto|left; intros r E; congruence].
Qed.

Lemma refs_nonneg set own a : 0 <= refs set own a.
Proof. unfold refs. pose proof (countb_nonneg _ (fun f => f_ref f =? a) set). pose proof (countb_nonneg _ (isHold a) own). lia. Qed.
Lemma refs_hold set own a b : refs set (Hold b :: own) a = refs set own a + (if b =? a then 1 else 0).
Proof. unfold refs. rewrite countb_cons. cbn [isHold]. lia. Qed.
Lemma refs_dying set own a b : refs set (Dying b :: own) a = refs set own a.
Proof. unfold refs. rewrite countb_cons. cbn [isHold]. lia. Qed.
Lemma refs_gone set own a b : refs set (Gone b :: own) a = refs set own a.
Proof. unfold refs. rewrite countb_cons. cbn [isHold]. lia. Qed.
Lemma refs_le set own a : refs set own a <= zlen set + zlen own.
Proof. unfold refs. pose proof (countb_le _ (fun f => f_ref f =? a) set). pose proof (countb_le _ (isHold a) own). lia. Qed.

Lemma live_range s a : live s a -> 1 <= a <= zlen (t_objs s).
Proof.
  intros (o & H). unfold deref in H. destruct (znth (t_objs s) (a - 1)) eqn:E; [|discriminate].
  apply znth_some_range in E. lia.
Qed.
Lemma deref_put s a o b x : deref s a = Some x ->
  deref (put s a o) b = if b =? a then (if lb_freed o then None else Some o) else deref s b.
Proof.
  intros H. assert (R := live_range s a (ex_intro _ x H)). unfold deref, put, set_objs. cbn [t_objs].
  destruct (Z.eqb_spec b a) as [->|N].
  - rewrite znth_zupd_eq by lia. auto.
  - rewrite znth_zupd_neq by lia. auto.
Qed.
Lemma live_put s a o b x : deref s a = Some x -> lb_freed o = false -> (live (put s a o) b <-> live s b).
Proof.
  intros H F. unfold live. rewrite (deref_put s a o b x H), F. destruct (Z.eqb_spec b a) as [->|N]; [|tauto].
  split; intros _; eauto.
Qed.
Lemma deref_freed s a o : deref s a = Some o -> lb_freed o = false.
Proof. unfold deref. destruct (znth _ _); [|discriminate]. destruct (lb_freed l) eqn:E; [discriminate|]. congruence. Qed.

(** Only the objects, the list and the flows matter, and what is counted. *)
Lemma deref_ext s s' a : t_objs s' = t_objs s -> deref s' a = deref s a.
Proof. unfold deref. intros ->. auto. Qed.
Lemma live_ext s s' a : t_objs s' = t_objs s -> (live s' a <-> live s a).
Proof. intros E. unfold live. rewrite (deref_ext s s' a E). tauto. Qed.
Lemma inv_ext s s' own : t_objs s' = t_objs s -> t_list s' = t_list s -> t_set s' = t_set s -> inv s own -> inv s' own.
Proof.
  intros E1 E2 E3 [A1 A2 A3 A4 A5 A6 A7]. constructor; rewrite ?E2, ?E3; auto; intros a; rewrite ?(live_ext s s' a E1); auto.
  rewrite (deref_ext s s' a E1). auto.
Qed.
Lemma inv_perm s own own' : Permutation own own' -> inv s own -> inv s own'.
Proof.
  intros P [A1 A2 A3 A4 A5 A6 A7].
  assert (R : forall a, refs (t_set s) own' a = refs (t_set s) own a) by (intros a; unfold refs; rewrite (countb_perm _ _ _ P); auto).
  constructor; auto; intros a; rewrite ?R, <- ?(countb_perm _ _ _ P); auto.
Qed.
Lemma s32_small x : 0 <= x < 2147483648 -> s32 x = x.
Proof. intros H. unfold s32, u32, two32. rewrite Z.mod_small by lia. replace (x <? 2147483648) with true by lia. auto. Qed.

(** *** A reference is taken *)
Lemma inv_lock s own a : inv s own -> 0 < refs (t_set s) own a -> a <> 0 -> refs (t_set s) own a < 2147483647 ->
  exists s', lockRef s a = Some s' /\ inv s' (Hold a :: own) /\ t_set s' = t_set s.
Proof.
  intros [A1 A2 A3 A4 A5 A6 A7] P N B. destruct (A2 a N P) as (o & H). unfold lockRef. rewrite H.
  eexists. split; [reflexivity|]. split; [|reflexivity]. rewrite (A1 a o H).
  rewrite s32_small by lia. set (o' := mkLb _ _ _ _).
  assert (F : lb_freed o' = false) by (cbn; eapply deref_freed; eauto).
  constructor; cbn [t_set t_list put set_objs].
  - intros b ob HB. fold (put s a o') in HB. rewrite (deref_put s a o' b o H), F in HB. rewrite refs_hold. rewrite (Z.eqb_sym a b). destruct (Z.eqb_spec b a) as [->|NE].
    + assert (ob = o') as -> by congruence. reflexivity.
    + rewrite (A1 b ob HB). lia.
  - intros b NB. fold (put s a o'). rewrite refs_hold, (live_put s a o' b o H F). destruct (Z.eqb_spec a b) as [->|NE]; [exists o; auto|].
    intros K. apply A2; auto. lia.
  - intros b. fold (put s a o'). rewrite refs_hold, (live_put s a o' b o H F), countb_cons. cbn [isEnd]. destruct (Z.eqb_spec a b) as [->|NE].
    + intros. pose proof (refs_nonneg (t_set s) own b). lia.
    + intros L R. rewrite A3; auto; lia.
  - intros b. fold (put s a o'). rewrite refs_hold, (live_put s a o' b o H F), countb_cons. cbn [isEnd]. intros K.
    destruct (A4 b) as (K1 & K2); [lia|]. destruct (Z.eqb_spec a b) as [->|NE]; [lia|]. split; auto. lia.
  - intros b. fold (put s a o'). rewrite (live_put s a o' b o H F), countb_cons. cbn [isGone]. apply A5.
  - auto.
  - auto.
Qed.

(** *** A reference is given back *)
Lemma inv_gave s own a : inv s (Hold a :: own) -> a <> 0 -> refs (t_set s) (Hold a :: own) a < 2147483648 ->
  exists o, deref s a = Some o /\ let r := s32 (lb_ref o - 1) in
    let s' := put s a (mkLb (lb_target o) r (lb_region o) (lb_freed o)) in
    0 <= r /\ (r = 0 -> inv s' (Dying a :: own)) /\ (r <> 0 -> inv s' own).
Proof.
  intros [A1 A2 A3 A4 A5 A6 A7] N B. pose proof (refs_nonneg (t_set s) own a) as RN.
  assert (E : refs (t_set s) (Hold a :: own) a = refs (t_set s) own a + 1) by (rewrite refs_hold, Z.eqb_refl; auto).
  destruct (A2 a N) as (o & H); [lia|]. exists o. split; auto. cbv zeta. rewrite (A1 a o H), s32_small by lia.
  rewrite E. replace (refs (t_set s) own a + 1 - 1) with (refs (t_set s) own a) by lia. set (o' := mkLb _ _ _ _).
  assert (F : lb_freed o' = false) by (cbn; eapply deref_freed; eauto).
  assert (EN : countb (isEnd a) own = 0).
  { pose proof (countb_nonneg _ (isEnd a) own). destruct (Z.eq_dec (countb (isEnd a) own) 0); auto.
    destruct (A4 a) as (_ & K); [rewrite countb_cons; cbn [isEnd]; lia|]. lia. }
  split; [lia|]. split; intros Z0.
  - constructor; cbn [t_set t_list put set_objs].
    + intros b ob HB. fold (put s a o') in HB. rewrite (deref_put s a o' b o H), F in HB. rewrite refs_dying. destruct (Z.eqb_spec b a) as [->|NE].
      * assert (ob = o') as -> by congruence. reflexivity.
      * rewrite (A1 b ob HB), refs_hold. destruct (Z.eqb_spec a b); [congruence|]. lia.
    + intros b NB. fold (put s a o'). rewrite refs_dying, (live_put s a o' b o H F). intros K. apply A2; auto. rewrite refs_hold. destruct (a =? b); lia.
    + intros b. fold (put s a o'). rewrite refs_dying, (live_put s a o' b o H F), countb_cons. cbn [isEnd]. destruct (Z.eqb_spec a b) as [->|NE].
      * intros. rewrite EN. lia.
      * intros L R. specialize (A3 b L). rewrite refs_hold, countb_cons in A3. cbn [isEnd] in A3. destruct (Z.eqb_spec a b); [congruence|]. rewrite A3; lia.
    + intros b. fold (put s a o'). rewrite refs_dying, (live_put s a o' b o H F), countb_cons. cbn [isEnd]. destruct (Z.eqb_spec a b) as [->|NE].
      * intros _. split; auto. exists o; auto.
      * intros K. specialize (A4 b). rewrite refs_hold, countb_cons in A4. cbn [isEnd] in A4. destruct (Z.eqb_spec a b); [congruence|]. destruct A4 as (K1 & K2); [lia|]. split; auto; lia.
    + intros b. fold (put s a o'). rewrite (live_put s a o' b o H F), countb_cons. cbn [isGone]. rewrite A5, countb_cons. cbn [isGone]. tauto.
    + auto.
    + auto.
  - constructor; cbn [t_set t_list put set_objs].
    + intros b ob HB. fold (put s a o') in HB. rewrite (deref_put s a o' b o H), F in HB. destruct (Z.eqb_spec b a) as [->|NE].
      * assert (ob = o') as -> by congruence. reflexivity.
      * rewrite (A1 b ob HB), refs_hold. destruct (Z.eqb_spec a b); [congruence|]. lia.
    + intros b NB. fold (put s a o'). rewrite (live_put s a o' b o H F). intros K. apply A2; auto. rewrite refs_hold. destruct (a =? b); lia.
    + intros b. fold (put s a o'). rewrite (live_put s a o' b o H F). intros L R. destruct (Z.eq_dec a b) as [->|NE]; [lia|].
      specialize (A3 b L). rewrite refs_hold, countb_cons in A3. cbn [isEnd] in A3. destruct (Z.eqb_spec a b); [congruence|]. rewrite <- A3; lia.
    + intros b. fold (put s a o'). rewrite (live_put s a o' b o H F). intros K. specialize (A4 b). rewrite refs_hold, countb_cons in A4. cbn [isEnd] in A4. destruct A4 as (K1 & K2); [lia|].
      split; auto. pose proof (refs_nonneg (t_set s) own b). destruct (a =? b); lia.
    + intros b. fold (put s a o'). rewrite (live_put s a o' b o H F), A5, countb_cons. cbn [isGone]. tauto.
    + auto.
    + auto.
Qed.

(** *** Unlinking and release *)
Lemma unlink_ok s a : forall l, (forall x, In x l -> live s x) -> NoDup l ->
  exists l', unlink s l a = Some l' /\ NoDup l' /\ forall x, In x l' <-> In x l /\ x <> a.
Proof.
  induction l as [|x l IH]; intros LV ND; cbn [unlink].
  - exists []. split; auto. split; auto. cbn. tauto.
  - destruct (LV x (or_introl eq_refl)) as (o & ->). apply NoDup_cons_iff in ND. destruct ND as (N1 & N2).
    destruct (Z.eqb_spec x a) as [->|NE].
    + exists l. split; auto. split; auto. intros y. cbn [In]. split; [|intros ([->|K] & K2); congruence].
      intros K. split; auto. intros ->. auto.
    + destruct IH as (l' & -> & B1 & B2); auto; [intros; apply LV; right; auto|]. exists (x :: l'). split; auto.
      split; [constructor; auto; rewrite B2; tauto|]. intros y. cbn [In]. rewrite B2. split; [intros [->|(K & K2)]; auto|intros ([->|K] & K2); auto].
Qed.
Lemma inv_unlink s own a : inv s (Dying a :: own) ->
  live s a /\ exists l', unlink s (t_list s) a = Some l' /\ inv (set_list s l') (Gone a :: own).
Proof.
  intros [A1 A2 A3 A4 A5 A6 A7].
  destruct (A4 a) as (LV & R0); [rewrite countb_cons; cbn [isEnd]; rewrite Z.eqb_refl; pose proof (countb_nonneg _ (isEnd a) own); lia|].
  rewrite refs_dying in R0. split; auto.
  destruct (unlink_ok s a (t_list s)) as (l' & E & B1 & B2); auto; [intros x K; apply A5 in K; tauto|].
  exists l'. split; auto.
  assert (G : countb (isGone a) own = 0).
  { pose proof (A3 a LV) as K. rewrite refs_dying, countb_cons in K. cbn [isEnd] in K. rewrite Z.eqb_refl in K. specialize (K R0).
    pose proof (countb_nonneg _ (isGone a) own). destruct (Z.eq_dec (countb (isGone a) own) 0); auto.
    destruct (countb_pos _ (isGone a) own) as (t & T1 & T2); [lia|].
    assert (0 < countb (isEnd a) own) by (apply countb_in with t; auto; destruct t; cbn in *; auto; discriminate). lia. }
  constructor; cbn [t_set t_list set_list].
  - intros b ob. rewrite (deref_ext s (set_list s l') b eq_refl), refs_gone. intros HB. rewrite (A1 b ob HB). rewrite refs_dying. auto.
  - intros b NB. rewrite refs_gone, (live_ext s (set_list s l') b eq_refl). intros K. apply A2; [auto|]. rewrite refs_dying. auto.
  - intros b. rewrite refs_gone, (live_ext s (set_list s l') b eq_refl), countb_cons. cbn [isEnd]. intros L R. specialize (A3 b L). rewrite refs_dying, countb_cons in A3. cbn [isEnd] in A3. auto.
  - intros b. rewrite refs_gone, (live_ext s (set_list s l') b eq_refl), countb_cons. cbn [isEnd]. intros K. specialize (A4 b). rewrite refs_dying, countb_cons in A4. cbn [isEnd] in A4. auto.
  - intros b. rewrite (live_ext s (set_list s l') b eq_refl), B2, A5, !countb_cons. cbn [isGone]. destruct (Z.eqb_spec a b) as [->|NE].
    + rewrite G. split; [intros (_ & K); congruence|intros (_ & K); lia].
    + split; intros (K1 & K2); (split; [|auto]); tauto || lia.
  - auto.
  - auto.
Qed.
Lemma inv_free s own a : inv s (Gone a :: own) -> exists o, deref s a = Some o /\
  inv (put s a (mkLb (lb_target o) (lb_ref o) (lb_region o) true)) own.
Proof.
  intros [A1 A2 A3 A4 A5 A6 A7].
  destruct (A4 a) as ((o & H) & R0); [rewrite countb_cons; cbn [isEnd]; rewrite Z.eqb_refl; pose proof (countb_nonneg _ (isEnd a) own); lia|].
  rewrite refs_gone in R0. exists o. split; auto. set (o' := mkLb _ _ _ _).
  assert (D : forall b, deref (put s a o') b = if b =? a then None else deref s b).
  { intros b. rewrite (deref_put s a o' b o H). cbn [lb_freed o']. auto. }
  assert (LV : forall b, live (put s a o') b <-> live s b /\ b <> a).
  { intros b. unfold live. rewrite D. destruct (Z.eqb_spec b a) as [->|NE]; [|intuition]. split; [intros (x & K); discriminate|tauto]. }
  assert (EA : countb (isEnd a) own = 0).
  { pose proof (A3 a (ex_intro _ o H)) as K. rewrite refs_gone, countb_cons in K. cbn [isEnd] in K. rewrite Z.eqb_refl in K. lia. }
  constructor; cbn [t_set t_list put set_objs]; fold (put s a o').
  - intros b ob. rewrite D. destruct (Z.eqb_spec b a) as [->|NE]; [discriminate|]. intros HB. rewrite (A1 b ob HB), refs_gone. auto.
  - intros b NB K. rewrite LV. split; [apply A2; auto; rewrite refs_gone; auto|]. intros ->. lia.
  - intros b. rewrite LV. intros (L & NE) R. specialize (A3 b L). rewrite refs_gone, countb_cons in A3. cbn [isEnd] in A3. destruct (Z.eqb_spec a b); [congruence|]. rewrite <- A3; lia.
  - intros b K. destruct (Z.eq_dec a b) as [->|NE]; [lia|]. specialize (A4 b). rewrite refs_gone, countb_cons in A4. cbn [isEnd] in A4. destruct (Z.eqb_spec a b); [congruence|].
    destruct A4 as (K1 & K2); [lia|]. rewrite LV. auto.
  - intros b. rewrite LV, A5, countb_cons. cbn [isGone]. destruct (Z.eqb_spec a b) as [->|NE].
    + split; [intros (_ & K); pose proof (countb_nonneg _ (isGone b) own); lia|intros ((_ & K) & _); congruence].
    + split; [intros (K1 & K2)|intros ((K1 & _) & K2)]; repeat split; auto; lia.
  - auto.
  - auto.
Qed.

(** *** A new object *)
Lemma deref_new s o a : lb_freed o = false ->
  deref (set_list (set_objs s (t_objs s ++ [o])) (a :: t_list s)) a =
  deref (set_objs s (t_objs s ++ [o])) a.
Proof. intros. apply deref_ext. reflexivity. Qed.
Lemma deref_app s o b l : lb_freed o = false ->
  deref (set_list (set_objs s (t_objs s ++ [o])) l) b = if b =? zlen (t_objs s) + 1 then Some o else deref s b.
Proof.
  intros F. unfold deref. cbn [t_objs set_list set_objs]. pose proof (zlen_nonneg _ (t_objs s)) as ZN.
  destruct (Z.eqb_spec b (zlen (t_objs s) + 1)) as [->|NE].
  - unfold znth. destruct (zlen (t_objs s) + 1 - 1 <? 0) eqn:E; [lia|]. rewrite nth_error_app2; unfold zlen in *; [|lia].
    replace (Z.to_nat (Z.of_nat (length (t_objs s)) + 1 - 1) - length (t_objs s))%nat with 0%nat by lia. cbn [nth_error]. rewrite F. auto.
  - destruct (Z.ltb_spec (b - 1) (zlen (t_objs s))) as [K|K].
    + unfold znth. destruct (Z.ltb_spec (b - 1) 0); auto. rewrite nth_error_app1; auto. unfold zlen in *. lia.
    + rewrite (znth_out _ (t_objs s)) by lia. rewrite znth_out; auto. right. unfold zlen in *. rewrite app_length. cbn [length]. lia.
Qed.
Lemma inv_create s own t r : inv s own -> let a := zlen (t_objs s) + 1 in
  inv (set_list (set_objs s (t_objs s ++ [mkLb t 1 r false])) (a :: t_list s)) (Hold a :: own).
Proof.
  intros [A1 A2 A3 A4 A5 A6 A7] a. set (o := mkLb t 1 r false). assert (F : lb_freed o = false) by reflexivity.
  pose proof (zlen_nonneg _ (t_objs s)) as ZN.
  assert (NL : ~ live s a) by (intros K; apply live_range in K; lia).
  assert (R0 : refs (t_set s) own a = 0).
  { pose proof (refs_nonneg (t_set s) own a). destruct (Z.eq_dec (refs (t_set s) own a) 0); auto. exfalso. apply NL, A2; lia. }
  assert (E0 : countb (isEnd a) own = 0).
  { pose proof (countb_nonneg _ (isEnd a) own). destruct (Z.eq_dec (countb (isEnd a) own) 0); auto. exfalso. apply NL, A4; lia. }
  assert (LV : forall b, live (set_list (set_objs s (t_objs s ++ [o])) (a :: t_list s)) b <-> b = a \/ live s b).
  { intros b. unfold live. rewrite deref_app by auto. fold a. destruct (Z.eqb_spec b a) as [->|NE]; [split; eauto|]. tauto. }
  assert (G0 : countb (isGone a) own = 0).
  { pose proof (countb_nonneg _ (isGone a) own). destruct (Z.eq_dec (countb (isGone a) own) 0); auto.
    destruct (countb_pos _ (isGone a) own) as (x & T1 & T2); [lia|].
    assert (0 < countb (isEnd a) own) by (apply countb_in with x; auto; destruct x; cbn in *; auto; discriminate). lia. }
  constructor; cbn [t_set t_list set_list set_objs]; auto.
  - intros b ob. change (mkSt _ _ _ _ _ _ _) with (set_list (set_objs s (t_objs s ++ [o])) (a :: t_list s)).
    rewrite deref_app by auto. fold a. rewrite refs_hold, (Z.eqb_sym a b). destruct (Z.eqb_spec b a) as [->|NE]; intros HB.
    + assert (ob = o) as -> by congruence. cbn [lb_ref o]. lia.
    + rewrite (A1 b ob HB). lia.
  - intros b NB. rewrite refs_hold. intros K. apply LV. destruct (Z.eqb_spec a b) as [->|NE]; auto. right. apply A2; auto. lia.
  - intros b K. apply LV in K. rewrite refs_hold, countb_cons. cbn [isEnd]. intros R. destruct (Z.eqb_spec a b) as [->|NE]; [lia|].
    destruct K as [->|K]; [congruence|]. rewrite A3; auto; lia.
  - intros b. rewrite countb_cons, refs_hold. cbn [isEnd]. intros K. destruct (Z.eqb_spec a b) as [->|NE]; [lia|].
    destruct (A4 b) as (K1 & K2); [lia|]. split; [apply LV; auto|lia].
  - intros b. rewrite (LV b). cbn [In]. rewrite countb_cons. cbn [isGone]. rewrite A5. split.
    + intros [<-|(K1 & K2)]; split; auto.
    + intros ([->|K1] & K2); auto.
  - constructor; auto. rewrite A5. tauto.
Qed.

(** *** The flow set is changed: the flow takes over a reference, or leaves it *)
Lemma inv_set s own set own' : inv s own -> good_set set ->
  (forall a, a <> 0 -> refs set own' a = refs (t_set s) own a) -> (forall a, countb (isEnd a) own' = countb (isEnd a) own) ->
  (forall a, countb (isGone a) own' = countb (isGone a) own) -> inv (set_flows s set) own'.
Proof.
  intros [A1 A2 A3 A4 A5 A6 A7] GS R E G.
  assert (Z0 : forall a, live s a -> a <> 0) by (intros a K; apply live_range in K; lia).
  constructor; cbn [t_set t_list set_flows]; auto.
  - intros a o. rewrite (deref_ext s (set_flows s set) a eq_refl). intros H. rewrite R; [apply A1; auto|]. apply Z0. exists o; auto.
  - intros a NA. rewrite R by auto. intros K. apply (live_ext s (set_flows s set) a eq_refl); auto.
  - intros a K. apply (live_ext s (set_flows s set) a eq_refl) in K. rewrite R, E by auto. auto.
  - intros a. rewrite E. intros K. destruct (A4 a K) as (K1 & K2). rewrite R by auto. split; auto. 
  - intros a. rewrite G, (live_ext s (set_flows s set) a eq_refl); auto.
Qed.
