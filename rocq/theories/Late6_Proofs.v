(** What holds in every execution, also when second reads go wrong (C92): proofs. *)
From Verif Require Import Base Lists IpKey_Model Conntrack_Model Frag_Model FragVals_Proofs Late_Model Late_Spec Late_Proofs.

(** [A]: the values accepted so far, [B]: the keys *)
Definition says (A : Z -> Prop) (B : ckey -> Prop) (ob : list obs) : Prop :=
  forall k v, In (Returned k 0 v) ob -> match v with Some x => A x | None => B k end.
Definition pc_says (A : Z -> Prop) (B : ckey -> Prop) (p : pc) : Prop :=
  match p with
  | PTaken c _ _ | PGive c _ => B (c_k c)
  | PBack _ _ _ rc v | PUnl _ _ rc v => (rc = 0 -> v <> None) /\ opt_ok A v
  | _ => True
  end.
Definition tells (A : Z -> Prop) (B : ckey -> Prop) (ob : list obs) : Prop := forall k v, In (Accepted k v) ob -> A v /\ B k.

Lemma quiet_says A B ob : quiet ob -> says A B ob.
Proof. intros Q k v I. destruct (Q _ _ _ I). Qed.
Lemma says_app A B a b : says A B a -> says A B b -> says A B (a ++ b).
Proof. intros X Y k v I. apply in_app_or in I. destruct I as [I|I]; [exact (X _ _ I)|exact (Y _ _ I)]. Qed.
Lemma says_no A B c : says A B (ret c (-1) None).
Proof. intros k v [I|[]]. discriminate. Qed.

Lemma tstep_says A B g s p a s' p' ob : tstep g s p a = Ok (s', p', ob) -> fvals A s -> pc_says A B p -> tells A B ob ->
  fvals A s' /\ pc_says A B p' /\ says A B ob.
Proof.
  intros H V P C.
  destruct p as [|c|c o|c o|c o|c|c o|c o|c o l|c l|c o|c o|c o|c o|c o l|c l|c o f|c o f rc v|c o rc v]; cbn [tstep] in H; cbn [pc_says] in P.
  - destruct (lookup_op s _ _) as [[[s1 o] ob1]| | |] eqn:E; try discriminate. cbn [obind] in H. destruct (lookup_vals A _ _ _ _ _ _ E V) as (V1 & Q).
    destruct (o =? 0); [|injection H as <- <- <-; split; [exact V1|split; [exact I|apply quiet_says; exact Q]]].
    destruct (a_call a); injection H as <- <- <-; (split; [exact V1|split; [exact I|]]); try (apply quiet_says; exact Q).
    apply says_app; [apply quiet_says; exact Q|apply says_no].
  - destruct (s_fdfree s <=? 0); injection H as <- <- <-.
    + split; [exact V|split; [exact I|apply says_no]].
    + split; [|split; [exact I|apply quiet_says, quiet_nil]]. intros o b [E|E]; [|exact (V o b E)]. injection E as <- <-. exact I.
  - destruct (insert_op g s _ _ _ _) as [[[s1 rc] ob1]| | |] eqn:E; try discriminate. cbn [obind] in H. injection H as <- <- <-.
    destruct (insert_vals A _ _ _ _ _ _ _ _ _ E V) as (V1 & Q). split; [exact V1|split; [|apply quiet_says; exact Q]]. destruct (rc =? 0); [exact I|destruct (rc =? 1); exact I].
  - destruct (fragDataLock s o) as [s1| | |] eqn:E; try discriminate. cbn [obind] in H. injection H as <- <- <-.
    split; [eapply lock_vals; eauto|split; [exact I|apply quiet_says, quiet_nil]].
  - destruct (fragDataUnlock s o) as [[s1 ob1]| | |] eqn:E; try discriminate. cbn [obind] in H. injection H as <- <- <-.
    destruct (unlock_vals A _ _ _ _ E V) as (V1 & Q). split; [exact V1|split; [exact I|apply quiet_says; exact Q]].
  - destruct (lookup_op s _ _) as [[[s1 o] ob1]| | |] eqn:E; try discriminate. cbn [obind] in H. destruct (lookup_vals A _ _ _ _ _ _ E V) as (V1 & Q).
    destruct (o =? 0); injection H as <- <- <-; (split; [exact V1|split; [exact I|]]); [apply says_app; [apply quiet_says; exact Q|apply says_no]|apply quiet_says; exact Q].
  - destruct (fragDataUnlock s o) as [[s1 ob1]| | |] eqn:E; try discriminate. cbn [obind] in H. injection H as <- <- <-.
    destruct (unlock_vals A _ _ _ _ E V) as (V1 & Q). split; [exact V1|split; [exact I|apply says_app; [apply quiet_says; exact Q|apply says_no]]].
  - destruct (oget (s_objs s) o) as [b|] eqn:EG; [|discriminate]. destruct c as [now k v want|now k|now k d].
    + destruct (o_state b); injection H as <- <- <-.
      2: { destruct (C k v (or_introl eq_refl)) as [CA CB]. split; [apply fvals_set; [exact V|exact CA]|split; [exact CB|apply quiet_says; intros ? ? ? [E|[]]; discriminate]]. }
      all: split; [exact V|split; [split; [discriminate|exact I]|apply quiet_says, quiet_nil]].
    + destruct (o_state b); injection H as <- <- <-; (split; [exact V|split; [|apply quiet_says, quiet_nil]]); try exact I; split; [discriminate|exact I|discriminate|exact I].
    + assert (K : Ok (s, PCheck (CStore now k d) o, []) = Ok (s', p', ob) -> fvals A s' /\ pc_says A B p' /\ says A B ob).
      { intros K. injection K as <- <- <-. split; [exact V|split; [exact I|apply quiet_says, quiet_nil]]. }
      destruct (o_state b), (a_done a); auto.
      destruct (table_op s _) as [[[s1 v1] ob1]| | |] eqn:E; try discriminate. cbn [obind] in H. injection H as <- <- <-.
      destruct (table_vals A _ _ _ _ _ E V) as (V1 & Q). split; [exact V1|split; [exact I|apply quiet_says; exact Q]].
  - destruct (fragDataUnlock s o) as [[s1 ob1]| | |] eqn:E; try discriminate. cbn [obind] in H. injection H as <- <- <-.
    destruct (unlock_vals A _ _ _ _ E V) as (V1 & Q). split; [exact V1|split; [exact P|apply quiet_says; exact Q]].
  - assert (K : forall x, quiet [x] -> says A B (x :: ret c 0 None)).
    { intros x Q k v [I|[I|[]]]; [destruct (Q k 0 v); left; exact I|]. injection I as <- <-. exact P. }
    destruct c as [now k v [|]|now k|now k d]; injection H as <- <- <-; (split; [eapply fvals_objs; [|exact V]; reflexivity|split; [exact I|apply K; intros ? ? ? [E|[]]; discriminate]]).
  - destruct (oget (s_objs s) o) as [b|] eqn:EG; [|discriminate].
    assert (K : Ok (s, PUnl c o (-1) None, []) = Ok (s', p', ob) -> fvals A s' /\ pc_says A B p' /\ says A B ob).
    { intros K. injection K as <- <- <-. split; [exact V|split; [split; [discriminate|exact I]|apply quiet_says, quiet_nil]]. }
    destruct (o_state b); [injection H as <- <- <-; split; [exact V|split; [exact I|apply quiet_says, quiet_nil]]| |apply K; destruct c; exact H].
    destruct c as [now k v want|now k|now k d]; try (apply K; exact H). destruct (g_mtu g <? zlen d); [apply K; exact H|].
    injection H as <- <- <-. split; [exact V|split; [exact I|apply quiet_says, quiet_nil]].
  - destruct (oget (s_objs s) o) as [b|] eqn:EG; [|discriminate]. pose proof (fvals_get A s o b V EG) as VB. destruct (o_val b) as [v|]; [|discriminate].
    injection H as <- <- <-. split; [exact V|split; [split; [discriminate|exact VB]|apply quiet_says, quiet_nil]].
  - destruct c as [now k v want|now k|now k d]; try discriminate. destruct (s_frfree s <=? 0); injection H as <- <- <-.
    + split; [exact V|split; [exact I|apply quiet_says, quiet_nil]].
    + split; [eapply fvals_objs; [|exact V]; reflexivity|split; [exact I|apply quiet_says, quiet_nil]].
  - destruct (oget (s_objs s) o) as [b|] eqn:EG; [|discriminate]. injection H as <- <- <-.
    split; [apply fvals_set; auto; cbn [o_val]; eapply fvals_get; eauto|split; [exact I|apply quiet_says, quiet_nil]].
  - destruct (fragDataUnlock s o) as [[s1 ob1]| | |] eqn:E; try discriminate. cbn [obind] in H. injection H as <- <- <-.
    destruct (unlock_vals A _ _ _ _ E V) as (V1 & Q). split; [exact V1|split; [exact I|apply quiet_says; exact Q]].
  - injection H as <- <- <-. split; [eapply fvals_objs; [|exact V]; reflexivity|]. split; [exact I|]. intros k v [E|[E|[]]]; discriminate.
  - destruct (oget (s_objs s) o) as [b|] eqn:EG; [|discriminate]. pose proof (fvals_get A s o b V EG) as VB. destruct (o_state b).
    + destruct (o_val b) as [v|]; [|discriminate]. injection H as <- <- <-. split; [exact V|split; [split; [discriminate|exact VB]|apply quiet_says, quiet_nil]].
    + injection H as <- <- <-. split; [apply fvals_set; auto|split; [split; [discriminate|exact I]|]]. apply quiet_says. intros ? ? ? [E|[]]. discriminate.
    + injection H as <- <- <-. split; [exact V|split; [split; [discriminate|exact I]|apply quiet_says, quiet_nil]].
  - injection H as <- <- <-. split; [eapply fvals_objs; [|exact V]; reflexivity|split; [exact P|apply quiet_says, quiet_nil]].
  - destruct P as (P1 & P2). destruct (fragDataUnlock s o) as [[s1 ob1]| | |] eqn:E; try discriminate. cbn [obind] in H. injection H as <- <- <-.
    destruct (unlock_vals A _ _ _ _ E V) as (V1 & Q). split; [exact V1|split; [exact I|apply says_app; [apply quiet_says; exact Q|]]].
    intros k w [I|[]]. injection I as <- -> <-. destruct v as [x|]; [exact P2|]. destruct (P1 eq_refl eq_refl).
Qed.

Definition lpc_says A B (p : lpc) : Prop := match p with At q => pc_says A B q | Late _ _ _ _ _ => True end.
Lemma ltstep_says A B g s p a seen s' p' ob : ltstep g s p a seen = Ok (s', p', ob) -> fvals A s -> lpc_says A B p -> tells A B ob ->
  fvals A s' /\ lpc_says A B p' /\ says A B ob.
Proof.
  intros H V P C. destruct p as [q|c again o i x].
  - pose proof (ltstep_done _ _ _ _ _ _ _ _ H) as D. cbn beta iota in D. destruct (tstep_says A B _ _ _ _ _ _ _ D V P C) as (V1 & P1 & S1).
    split; [exact V1|split; [|exact S1]]. destruct p'; [exact P1|exact I].
  - cbn [ltstep] in H. unfold late_read in H. destruct (aget _ i) as [b| | |]; cbn [obind] in H; try discriminate.
    destruct (_ =? 0); [destruct again; [|destruct c]|]; injection H as <- <- <-; (split; [exact V|split; [exact I|]]); try apply says_no; apply quiet_says, quiet_nil.
Qed.

Definition acc_val (tr : list obs) (v : Z) : Prop := exists k, In (Accepted k v) tr.
Definition acc_key (tr : list obs) (k : ckey) : Prop := exists v, In (Accepted k v) tr.
Lemma fvals_more (A A' : Z -> Prop) s : (forall v, A v -> A' v) -> fvals A s -> fvals A' s.
Proof. intros M V o b I. specialize (V o b I). destruct (o_val b); cbn in *; auto. Qed.
Lemma says_more (A A' : Z -> Prop) (B B' : ckey -> Prop) ob : (forall v, A v -> A' v) -> (forall k, B k -> B' k) -> says A B ob -> says A' B' ob.
Proof. intros M N S k v I. specialize (S k v I). destruct v; auto. Qed.
Lemma lpc_more (A A' : Z -> Prop) (B B' : ckey -> Prop) p : (forall v, A v -> A' v) -> (forall k, B k -> B' k) -> lpc_says A B p -> lpc_says A' B' p.
Proof. intros M N. destruct p as [[]|]; cbn; auto; intros [X Y]; split; auto; destruct v; cbn in *; auto. Qed.

Lemma all_says g n tr w : lexec g (lstart g n) tr w ->
  fvals (acc_val tr) (l_sys w) /\ (forall p, In p (l_pcs w) -> lpc_says (acc_val tr) (acc_key tr) p) /\ says (acc_val tr) (acc_key tr) tr.
Proof.
  intros X. remember (lstart g n) as w0. induction X as [w|w tr w1 l ob w2 X IH ST].
  - subst w. split; [intros o b []|split; [|intros k v []]]. intros p I. cbn [l_pcs lstart] in I. apply repeat_spec in I. subst p. exact I.
  - destruct (IH Heqw0) as (V & P & S). clear IH.
    assert (M : forall v, acc_val tr v -> acc_val (tr ++ ob) v) by (intros v [k I]; exists k; apply in_or_app; auto).
    assert (N : forall k, acc_key tr k -> acc_key (tr ++ ob) k) by (intros k [v I]; exists v; apply in_or_app; auto).
    assert (C : tells (acc_val (tr ++ ob)) (acc_key (tr ++ ob)) ob) by (intros k v I; split; [exists k|exists v]; apply in_or_app; auto).
    pose proof (fvals_more _ _ _ M V) as V'. pose proof (says_more _ _ _ _ _ M N S) as S'.
    destruct l as [j a seen|i now]; cbn [lwstep] in ST.
    + destruct (znth (l_pcs w1) j) as [p|] eqn:EP; [|discriminate]. injection ST as ST.
      destruct (ltstep g (l_sys w1) p a seen) as [[[s1 p1] ob1]| | |] eqn:ES; cbn [obind] in ST; try discriminate. injection ST as <- <-.
      destruct (ltstep_says _ _ _ _ _ _ _ _ _ _ ES V' (lpc_more _ _ _ _ _ M N (P _ (znth_In _ _ _ _ EP))) C) as (V1 & P1 & S1).
      split; [exact V1|split; [|apply says_app; [exact S'|exact S1]]]. cbn [l_pcs]. intros q I. apply In_znth in I. destruct I as [m I].
      apply upd_cases in I. destruct I as [[_ ->]|[_ I]]; [exact P1|]. apply (lpc_more _ _ _ _ _ M N). apply P. eapply znth_In; exact I.
    + destruct (_ && _); [|discriminate]. injection ST as ST. destruct (gc_bucket (l_sys w1) i now) as [[s1 ob1]| | |] eqn:EG; cbn [obind] in ST; try discriminate. injection ST as <- <-.
      unfold gc_bucket in EG. destruct (aget _ i) as [b| | |]; cbn [obind] in EG; try discriminate. destruct (bucketGC b now) as [[[b' ev] m] st].
      destruct (callbacks_vals (acc_val (tr ++ ob1)) ev _ _ _ EG) as [V1 Q]; [exact V'|].
      split; [exact V1|split; [|apply says_app; [exact S'|apply quiet_says; exact Q]]]. cbn [l_pcs]. intros q I. apply (lpc_more _ _ _ _ _ M N). apply P. exact I.
Qed.
Lemma never_invented g n tr w k v : lexec g (lstart g n) tr w -> In (Returned k 0 v) tr ->
  match v with Some x => exists k', In (Accepted k' x) tr | None => exists x, In (Accepted k x) tr end.
Proof. intros X I. destruct (all_says _ _ _ _ X) as (_ & _ & S). exact (S k v I). Qed.
