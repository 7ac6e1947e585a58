(** The fragment table hands out only values that were stored in it: an
    invariant of the steps of Frag_Model, used for C48. *)
From Verif Require Import Base Lists Frag_Model.
From Verif Require Conntrack_Model.

Definition opt_ok (A : Z -> Prop) (v : option Z) : Prop := match v with Some x => A x | None => True end.
Definition fvals (A : Z -> Prop) (s : sys) : Prop := forall o b, In (o, b) (s_objs s) -> opt_ok A (o_val b).
Definition obs_ok (A : Z -> Prop) (ob : list obs) : Prop := forall k rc v, In (Returned k rc (Some v)) ob -> A v.
Definition quiet (ob : list obs) : Prop := forall k rc v, ~ In (Returned k rc v) ob.
Definition call_val (A : Z -> Prop) (c : call) : Prop := match c with CFirst _ _ v _ => A v | _ => True end.
(** The call a thread executes, and the value it carries *)
Definition pc_ok (A : Z -> Prop) (p : pc) : Prop :=
  match p with
  | Idle => True
  | PAlloc c | PIns c _ | PInc c _ | PLost c _ | PAgain c | PFull c _ | PBody c _ | PTaken c _ _ | PGive c _
  | PCheck c _ | PVal c _ | PItem c _ | PPoison c _ | PPoisoned c _ _ | PDrop c _ | PPut c _ _ => call_val A c
  | PBack c _ _ _ v | PUnl c _ _ v => call_val A c /\ opt_ok A v
  end.
Lemma oset_in l o b x : In x (oset l o b) -> x = (o, b) \/ In x l.
Proof.
  induction l as [|y l IH]; cbn; auto. destruct (fst y =? o); cbn; [intros [<-|H]; auto|intros [<-|H]; auto].
  destruct (IH H); auto.
Qed.
Lemma odel_in l o x : In x (odel l o) -> In x l.
Proof. induction l as [|y l IH]; cbn; auto. destruct (fst y =? o); cbn; auto. intros [<-|H]; auto. Qed.
Lemma oget_in l o b : oget l o = Some b -> exists o', In (o', b) l.
Proof.
  induction l as [|[o1 b1] l IH]; cbn; [discriminate|]. destruct (o1 =? o); [intros E; exists o1; left; congruence|].
  intros E. destruct (IH E) as (o' & H). exists o'. auto.
Qed.
Lemma fvals_get A s o b : fvals A s -> oget (s_objs s) o = Some b -> opt_ok A (o_val b).
Proof. intros H E. destruct (oget_in _ _ _ E) as (o' & I). exact (H o' b I). Qed.
Lemma fvals_set A s o b : fvals A s -> opt_ok A (o_val b) -> fvals A (set_objs s (oset (s_objs s) o b)).
Proof.
  intros H HB o' b' I. cbn [set_objs s_objs] in I. apply oset_in in I. destruct I as [I|I]; [|exact (H o' b' I)].
  assert (b' = b) as -> by congruence. auto.
Qed.
Lemma fvals_objs A s s' : s_objs s' = s_objs s -> fvals A s -> fvals A s'.
Proof. unfold fvals. intros ->. auto. Qed.
Lemma quiet_nil : quiet [].
Proof. intros k rc v []. Qed.
Lemma quiet_app a b : quiet a -> quiet b -> quiet (a ++ b).
Proof. intros Ha Hb k rc v I. apply in_app_or in I. destruct I; [eapply Ha|eapply Hb]; eauto. Qed.
Lemma quiet_disc k l : quiet [Discarded k l].
Proof. intros k' rc v [I|[]]. discriminate. Qed.
Lemma quiet_ok A ob : quiet ob -> obs_ok A ob.
Proof. intros Q k rc v I. destruct (Q _ _ _ I). Qed.
Lemma obs_app A a b : obs_ok A a -> obs_ok A b -> obs_ok A (a ++ b).
Proof. intros Ha Hb k rc v I. apply in_app_or in I. destruct I; [eapply Ha|eapply Hb]; eauto. Qed.
Lemma obs_ret A c rc v : opt_ok A v -> obs_ok A (ret c rc v).
Proof. intros H k rc' v' [I|[]]. assert (v = Some v') as -> by congruence. exact H. Qed.

Lemma lock_vals A s o s' : fragDataLock s o = Ok s' -> fvals A s -> fvals A s'.
Proof.
  unfold fragDataLock. destruct (oget (s_objs s) o) as [b|] eqn:E; [|discriminate]. intros H V. injection H as <-.
  apply fvals_set; auto. cbn [o_val]. eapply fvals_get; eauto.
Qed.
Lemma unlock_vals A s o s' ob : fragDataUnlock s o = Ok (s', ob) -> fvals A s -> fvals A s' /\ quiet ob.
Proof.
  unfold fragDataUnlock. destruct (oget (s_objs s) o) as [b|] eqn:E; [|discriminate].
  destruct (o_ref b - 1 =? 0); intros H V; injection H as <- <-.
  - split; [|apply quiet_disc]. intros o' b' I. cbn in I. apply odel_in in I. exact (V o' b' I).
  - split; [|apply quiet_nil]. apply fvals_set; auto. cbn [o_val]. eapply fvals_get; eauto.
Qed.
Lemma callbacks_vals A ev : forall s s' ob, callbacks s ev = Ok (s', ob) -> fvals A s -> fvals A s' /\ quiet ob.
Proof.
  induction ev as [|e ev IH]; intros s s' ob H V; cbn [callbacks] in H.
  - injection H as <- <-. split; auto. apply quiet_nil.
  - match type of H with obind ?x _ = _ => destruct x as [[s1 ob1]| | |] eqn:E1; try discriminate end. cbn [obind] in H.
    destruct (callbacks s1 ev) as [[s2 ob2]| | |] eqn:E2; try discriminate. cbn [obind] in H. injection H as <- <-.
    assert (V1 : fvals A s1 /\ quiet ob1).
    { destruct e as [d|m|[r|]]; try (injection E1 as <- <-; split; [exact V|apply quiet_nil]). eapply unlock_vals; eauto. }
    destruct V1 as (V1 & Q1). destruct (IH s1 s2 ob2 E2 V1) as (V2 & Q2). split; auto. apply quiet_app; auto.
Qed.
Lemma table_vals A s o s' v ob : table_op s o = Ok (s', v, ob) -> fvals A s -> fvals A s' /\ quiet ob.
Proof.
  unfold table_op. destruct (Conntrack_Model.cstep (s_ct s) o) as [[[t v1] ev]| | |]; try discriminate. cbn [obind].
  destruct (callbacks (set_ct s t) ev) as [[s2 ob2]| | |] eqn:E; try discriminate. cbn [obind]. intros H V. injection H as <- <- <-.
  eapply callbacks_vals; eauto.
Qed.
Lemma lookup_vals A s now k s' o ob : lookup_op s now k = Ok (s', o, ob) -> fvals A s -> fvals A s' /\ quiet ob.
Proof.
  unfold lookup_op. destruct (table_op s _) as [[[s1 o1] ob1]| | |] eqn:E; try discriminate. cbn [obind]. intros H V.
  destruct (table_vals A _ _ _ _ _ E V) as (V1 & Q). destruct (o1 =? 0); [injection H as <- <- <-; auto|].
  destruct (fragDataLock s1 o1) as [s2| | |] eqn:E2; try discriminate. cbn [obind] in H. injection H as <- <- <-. split; auto. eapply lock_vals; eauto.
Qed.
Lemma insert_vals A g s now k o st s' rc ob : insert_op g s now k o st = Ok (s', rc, ob) -> fvals A s -> fvals A s' /\ quiet ob.
Proof.
  unfold insert_op. destruct (Conntrack_Model.ctInsertWithTTL _ _ _ _ _ _) as [[[? ?] ?]| | |]; try discriminate. cbn [obind]. intros H V.
  eapply table_vals; [exact H|exact V].
Qed.

(** One step of a thread *)
Lemma tstep_vals A g s p a s' p' ob : tstep g s p a = Ok (s', p', ob) -> fvals A s -> pc_ok A p -> (p = Idle -> call_val A (a_call a)) ->
  fvals A s' /\ pc_ok A p' /\ obs_ok A ob.
Proof.
  intros H V P C. destruct p as [|c|c o|c o|c o|c|c o|c o|c o l|c l|c o|c o|c o|c o|c o l|c l|c o f|c o f rc v|c o rc v]; cbn [tstep] in H; cbn [pc_ok] in P.
  - specialize (C eq_refl). destruct (lookup_op s _ _) as [[[s1 o] ob1]| | |] eqn:E; try discriminate. cbn [obind] in H.
    destruct (lookup_vals A _ _ _ _ _ _ E V) as (V1 & Q). destruct (o =? 0); [|injection H as <- <- <-; split; auto; split; auto; apply quiet_ok; auto].
    destruct (a_call a) as [now k v want|now k|now k d]; injection H as <- <- <-; (split; [exact V1|]).
    + split; [exact C|apply quiet_ok; exact Q].
    + split; [exact I|]. apply obs_app; [apply quiet_ok; exact Q|apply obs_ret; exact I].
    + split; [exact I|apply quiet_ok; exact Q].
  - destruct (s_fdfree s <=? 0); injection H as <- <- <-.
    + split; auto. split; [exact I|apply obs_ret; exact I].
    + split; [|split; [exact P|apply quiet_ok, quiet_nil]]. intros o b [E|E]; [|exact (V o b E)]. assert (b = mkObj 1 Storing None [] (c_k c)) as -> by congruence. exact I.
  - destruct (insert_op g s _ _ _ _) as [[[s1 rc] ob1]| | |] eqn:E; try discriminate. cbn [obind] in H. injection H as <- <- <-.
    destruct (insert_vals A _ _ _ _ _ _ _ _ _ E V) as (V1 & Q). split; auto. split; [|apply quiet_ok; auto]. destruct (rc =? 0); [exact P|destruct (rc =? 1); exact P].
  - destruct (fragDataLock s o) as [s1| | |] eqn:E; try discriminate. cbn [obind] in H. injection H as <- <- <-.
    split; [eapply lock_vals; eauto|split; [exact P|apply quiet_ok, quiet_nil]].
  - destruct (fragDataUnlock s o) as [[s1 ob1]| | |] eqn:E; try discriminate. cbn [obind] in H. injection H as <- <- <-.
    destruct (unlock_vals A _ _ _ _ E V) as (V1 & Q). split; auto. split; [exact P|apply quiet_ok; auto].
  - destruct (lookup_op s _ _) as [[[s1 o] ob1]| | |] eqn:E; try discriminate. cbn [obind] in H.
    destruct (lookup_vals A _ _ _ _ _ _ E V) as (V1 & Q). destruct (o =? 0); injection H as <- <- <-; (split; [exact V1|]).
    + split; [exact I|]. apply obs_app; [apply quiet_ok; exact Q|apply obs_ret; exact I].
    + split; [exact P|apply quiet_ok; exact Q].
  - destruct (fragDataUnlock s o) as [[s1 ob1]| | |] eqn:E; try discriminate. cbn [obind] in H. injection H as <- <- <-.
    destruct (unlock_vals A _ _ _ _ E V) as (V1 & Q). split; auto. split; [exact I|apply obs_app; [apply quiet_ok; auto|apply obs_ret; exact I]].
  - destruct (oget (s_objs s) o) as [b|] eqn:EG; [|discriminate]. destruct c as [now k v want|now k|now k d].
    + destruct (o_state b); injection H as <- <- <-.
      2: split; [apply fvals_set; auto; exact P|split; [exact P|apply quiet_ok; intros ? ? ? [E|[]]; discriminate]].
      all: split; auto; split; [split; [exact P|exact I]|apply quiet_ok, quiet_nil].
    + destruct (o_state b); injection H as <- <- <-; (split; [auto|split; [|apply quiet_ok, quiet_nil]]); try exact I; split; exact I.
    + assert (K : Ok (s, PCheck (CStore now k d) o, []) = Ok (s', p', ob) -> fvals A s' /\ pc_ok A p' /\ obs_ok A ob).
      { intros K. injection K as <- <- <-. split; auto. split; [exact I|apply quiet_ok, quiet_nil]. }
      destruct (o_state b), (a_done a); auto.
      destruct (table_op s _) as [[[s1 v1] ob1]| | |] eqn:E; try discriminate. cbn [obind] in H. injection H as <- <- <-.
      destruct (table_vals A _ _ _ _ _ E V) as (V1 & Q). split; auto. split; [exact I|apply quiet_ok; auto].
  - destruct (fragDataUnlock s o) as [[s1 ob1]| | |] eqn:E; try discriminate. cbn [obind] in H. injection H as <- <- <-.
    destruct (unlock_vals A _ _ _ _ E V) as (V1 & Q). split; auto. split; [exact P|apply quiet_ok; auto].
  - assert (K : forall x, obs_ok A (x :: ret c 0 None) <-> obs_ok A [x]).
    { intros x. split; intros K k rc v I; [apply (K k rc v); destruct I as [I|[]]; left; auto|].
      destruct I as [I|I]; [apply (K k rc v); left; auto|destruct I as [I|[]]; discriminate]. }
    destruct c as [now k v [|]|now k|now k d]; injection H as <- <- <-; (split; [eapply fvals_objs; [|exact V]; reflexivity|split; [exact I|apply K; intros ? ? ? [E|[]]; discriminate]]).
  - destruct (oget (s_objs s) o) as [b|] eqn:EG; [|discriminate].
    assert (K : forall rc, Ok (s, PUnl c o rc None, []) = Ok (s', p', ob) -> fvals A s' /\ pc_ok A p' /\ obs_ok A ob).
    { intros rc K. injection K as <- <- <-. split; auto. split; [split; [exact P|exact I]|apply quiet_ok, quiet_nil]. }
    destruct (o_state b); [injection H as <- <- <-; split; auto; split; [exact P|apply quiet_ok, quiet_nil]| |apply (K (-1)); destruct c; exact H].
    destruct c as [now k v want|now k|now k d]; try (apply (K (-1)); exact H). destruct (g_mtu g <? zlen d); [apply (K (-1)); exact H|].
    injection H as <- <- <-. split; auto. split; [exact P|apply quiet_ok, quiet_nil].
  - destruct (oget (s_objs s) o) as [b|] eqn:EG; [|discriminate]. pose proof (fvals_get A s o b V EG) as VB. destruct (o_val b) as [v|]; [|discriminate].
    injection H as <- <- <-. split; auto. split; [split; [exact P|exact VB]|apply quiet_ok, quiet_nil].
  - destruct c as [now k v want|now k|now k d]; try discriminate. destruct (s_frfree s <=? 0); injection H as <- <- <-.
    + split; auto. split; [exact P|apply quiet_ok, quiet_nil].
    + split; [eapply fvals_objs; [|exact V]; reflexivity|split; [exact P|apply quiet_ok, quiet_nil]].
  - destruct (oget (s_objs s) o) as [b|] eqn:EG; [|discriminate]. injection H as <- <- <-.
    split; [apply fvals_set; auto; cbn [o_val]; eapply fvals_get; eauto|split; [exact P|apply quiet_ok, quiet_nil]].
  - destruct (fragDataUnlock s o) as [[s1 ob1]| | |] eqn:E; try discriminate. cbn [obind] in H. injection H as <- <- <-.
    destruct (unlock_vals A _ _ _ _ E V) as (V1 & Q). split; auto. split; [exact P|apply quiet_ok; auto].
  - injection H as <- <- <-. split; [eapply fvals_objs; [|exact V]; reflexivity|]. split; [exact I|].
    intros k rc v [E|[E|[]]]; discriminate.
  - destruct (oget (s_objs s) o) as [b|] eqn:EG; [|discriminate]. pose proof (fvals_get A s o b V EG) as VB. destruct (o_state b).
    + destruct (o_val b) as [v|]; [|discriminate]. injection H as <- <- <-. split; auto. split; [split; [exact P|exact VB]|apply quiet_ok, quiet_nil].
    + injection H as <- <- <-. split; [apply fvals_set; auto|split; [split; [exact P|exact I]|]]. apply quiet_ok. intros ? ? ? [E|[]]. discriminate.
    + injection H as <- <- <-. split; auto. split; [split; [exact P|exact I]|apply quiet_ok, quiet_nil].
  - injection H as <- <- <-. split; [eapply fvals_objs; [|exact V]; reflexivity|split; [exact P|apply quiet_ok, quiet_nil]].
  - destruct P as (P1 & P2). destruct (fragDataUnlock s o) as [[s1 ob1]| | |] eqn:E; try discriminate. cbn [obind] in H. injection H as <- <- <-.
    destruct (unlock_vals A _ _ _ _ E V) as (V1 & Q). split; auto. split; [exact I|apply obs_app; [apply quiet_ok; auto|apply obs_ret; exact P2]].
Qed.
Lemma finish_vals A g n : forall s p a s' ob, finish n g s p a = Ok (s', ob) -> fvals A s -> pc_ok A p -> (p = Idle -> call_val A (a_call a)) ->
  fvals A s' /\ obs_ok A ob.
Proof.
  induction n as [|n IH]; intros s p a s' ob H V P C; cbn [finish] in H; [discriminate|].
  destruct (tstep g s p a) as [[[s1 p1] ob1]| | |] eqn:E; try discriminate. cbn [obind] in H.
  destruct (tstep_vals A g s p a s1 p1 ob1 E V P C) as (V1 & P1 & O1).
  assert (K : p1 = Idle \/ p1 <> Idle) by (destruct p1; auto; right; discriminate). destruct K as [->|K]; [injection H as <- <-; auto|].
  assert (H' : (do y <- finish n g s1 p1 a; let '(s2, ob2) := y in Ok (s2, ob1 ++ ob2)) = Ok (s', ob)) by (destruct p1; auto; congruence).
  destruct (finish n g s1 p1 a) as [[s2 ob2]| | |] eqn:E2; try discriminate. cbn [obind] in H'. injection H' as <- <-.
  destruct (IH s1 p1 a s2 ob2 E2 V1 P1) as (V2 & O2); [congruence|]. split; auto. apply obs_app; auto.
Qed.
Lemma call_vals A g s c d s' ob : call_op g s c d = Ok (s', ob) -> fvals A s -> call_val A c -> fvals A s' /\ obs_ok A ob.
Proof.
  unfold call_op. generalize 12%nat. intros n H V C. apply (finish_vals A g n s Idle (mkChoice c d false) s' ob H V I). intros _. exact C.
Qed.
