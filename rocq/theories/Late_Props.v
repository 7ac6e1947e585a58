(** C92: what a look-up in the fragment table returns is the entry that it found. *)
From Verif Require Import Base Lists IpKey_Model Conntrack_Model Conntrack_Spec Frag_Model Frag_Spec Frag2_Proofs Frag3_Proofs Late_Model Late_Spec Late_Proofs Late2_Proofs Late4_Proofs Late5_Proofs Late6_Proofs Late7_Proofs.

(** Partial: the executions in which every second read gets what was found.  They are executions of
    Frag_Model, in which the look-up is one step, with the same observable events. *)
Theorem C92_calm_partial : forall g n tr w, calm_exec g (lstart g n) tr w -> exec g (start g n) tr (done w).
Proof. exact calm_done. Qed.
Print Assumptions C92_calm_partial.

(** So the statements of C13 and C24 hold of them. *)
Theorem C92_value_of_a_first_partial : forall g n tr w t1 k v t2, conf_ok g -> calm_exec g (lstart g n) tr w ->
  tr = t1 ++ Returned k 0 (Some v) :: t2 -> In (Accepted k v) t1.
Proof. intros g n tr w t1 k v t2 G X. eapply returned_accepted; [exact G|exact (calm_done _ _ _ _ X)]. Qed.
Print Assumptions C92_value_of_a_first_partial.

(** A second read goes wrong only if the entry that was found has left the table in between. *)
Theorem C92_only_if_removed_partial : forall g n tr w l, calm_exec g (lstart g n) tr w -> disturbed w l ->
  exists j a seen c again o i x, l = LLThread j a seen /\ znth (l_pcs w) j = Some (Late c again o i x) /\ ~ In o (stored_data (s_ct (l_sys w))).
Proof. exact only_removed. Qed.
Print Assumptions C92_only_if_removed_partial.
(** So executions in which no entry leaves the table while a look-up returns it are those of Frag_Model. *)
Theorem C92_kept_partial : forall g n tr w, kept_exec g (lstart g n) tr w -> exec g (start g n) tr (done w).
Proof. intros g n tr w X. apply calm_done. apply kept_calm. exact X. Qed.
Print Assumptions C92_kept_partial.

(** With one queue, as by default, there is one thread, and nobody reads the statistics: everything
    holds without further conditions, and no step ever fails. *)
Theorem C92_one_queue_partial : forall g tr w l, conf_ok g -> packets_exec g (lstart g 1) tr w -> exec g (start g 1) tr (done w) /\ ~ lfails g w l.
Proof. exact one_queue. Qed.
Print Assumptions C92_one_queue_partial.

(** The same with any number of threads, if calls do not overlap. *)
Theorem C92_calls_partial : forall g n tr w l, conf_ok g -> calls_exec g (lstart g n) tr w -> exec g (start g n) tr (done w) /\ ~ lfails g w l.
Proof. exact calls_safe. Qed.
Print Assumptions C92_calls_partial.

(** In all executions, also when second reads go wrong: a value that is returned is that of a first
    fragment, of some datagram, and a first fragment for which success is told was accepted. *)
Theorem C92_never_invented_partial : forall g n tr w k v, lexec g (lstart g n) tr w -> In (Returned k 0 v) tr ->
  match v with Some x => exists k', In (Accepted k' x) tr | None => exists x, In (Accepted k x) tr end.
Proof. exact never_invented. Qed.
Print Assumptions C92_never_invented_partial.
Example never_invented_example : exists tr w k v, lexec lg (lstart lg 2) tr w /\ In (Returned k 0 (Some v)) tr /\ ~ In (Accepted k v) tr.
Proof. destruct other_value as (tr & w & H). exists tr, w, lka, 6. exact H. Qed.

(** Not in general: fragments of another datagram in other threads are enough. *)
Theorem C92_other_value_refuted : exists g tr w k v, conf_ok g /\ lexec g (lstart g 2) tr w /\ In (Returned k 0 (Some v)) tr /\ ~ In (Accepted k v) tr.
Proof. destruct other_value as (tr & w & H). exists lg, tr, w, lka, 6. split; [vm_compute; intuition discriminate|exact H]. Qed.
Print Assumptions C92_other_value_refuted.
(** After that nobody is in a call, but the next look-up uses an object that was given back. *)
Theorem C92_use_after_release_refuted : exists g tr w l, conf_ok g /\ lexec g (lstart g 2) tr w /\
  (forall p, In p (l_pcs w) -> p = At Idle) /\ lfails g w l.
Proof. destruct other_released as (tr & w & l & H). exists lg, tr, w, l. split; [vm_compute; intuition discriminate|exact H]. Qed.
Print Assumptions C92_use_after_release_refuted.
(** And objects are lost: nobody is in a call, the table is empty, and not all objects are free. *)
Theorem C92_lost_refuted : exists g tr w, conf_ok g /\ lexec g (lstart g 2) tr w /\
  (forall p, In p (l_pcs w) -> p = At Idle) /\ stored_data (s_ct (l_sys w)) = [] /\ s_objs (l_sys w) <> [].
Proof. destruct object_lost as (tr & w & H). exists lg, tr, w. split; [vm_compute; intuition discriminate|exact H]. Qed.
Print Assumptions C92_lost_refuted.

(** A second read that goes wrong in a calm execution: the entry is gone *)
Lemma calm_steps : forall g ls w0 tr w tr' w', calm_exec g w0 tr w ->
  (fix go (w : lworld) (tr : list obs) (ls : list llabel) : Prop :=
     match ls with [] => tr = tr' /\ w = w' | l :: r => ~ disturbed w l /\ match lwstep g w l with Some (Ok (w1, ob)) => go w1 (tr ++ ob) r | _ => False end end) w tr ls ->
  calm_exec g w0 tr' w'.
Proof.
  intros g. induction ls as [|l ls IH]; intros w0 tr w tr' w' X H; [destruct H as [<- <-]; exact X|]. destruct H as [H1 H2].
  destruct (lwstep g w l) as [[[w1 ob]| | |]|] eqn:E; try contradiction. eapply IH; [|exact H2]. econstructor; eauto.
Qed.
Lemma not_disturbed : forall w j a seen, (forall c again o i x, znth (l_pcs w) j = Some (Late c again o i x) -> forall b, znth (t_buckets (s_ct (l_sys w))) i = Some b -> cell_data b x seen = o) ->
  ~ disturbed w (LLThread j a seen).
Proof. intros w j a seen K (j1 & a1 & seen1 & c & again & o & i & x & b & E & P & B & N). injection E as <- <- <-. exact (N (K _ _ _ _ _ P _ B)). Qed.
Ltac calm_go :=
  repeat (split; [apply not_disturbed; intros c again o i x P b B; vm_compute in P; try discriminate P; injection P as <- <- <- <- <-; vm_compute in B; injection B as <-; reflexivity|];
    match goal with |- context [lwstep lg ?w ?l] => let r := eval vm_compute in (lwstep lg w l) in change (lwstep lg w l) with r; cbv iota beta; cbn [app] end);
  split; reflexivity.
Example disturbed_example : exists tr w l, calm_exec lg (lstart lg 2) tr w /\ disturbed w l.
Proof.
  destruct (lrun lg (lstart lg 2) [] removed_meanwhile) as [[tr w]|] eqn:E; [|vm_compute in E; discriminate].
  exists tr, w, (LLThread 0 (mkChoice (CGet 7 lka) false false) 0). vm_compute in E. injection E as <- <-. split.
  - eapply (calm_steps lg removed_meanwhile); [apply ce_nil|]. unfold removed_meanwhile. cbn [lth repeat app]. calm_go.
  - do 9 eexists. split; [reflexivity|]. split; [vm_compute; reflexivity|]. split; [vm_compute; reflexivity|]. vm_compute. discriminate.
Qed.
(** An execution in which the entry stays: a datagram whose second fragment is looked up *)
Example kept_example : exists tr w, kept_exec lg (lstart lg 2) tr w /\ In (Returned lka 0 (Some 5)) tr.
Proof.
  assert (R : forall ls w0 tr w tr' w', kept_exec lg w0 tr w ->
     (fix go (w : lworld) (tr : list obs) (ls : list llabel) : Prop := match ls with [] => tr = tr' /\ w = w' | l :: r => entry_there w l /\ match lwstep lg w l with Some (Ok (w1, ob)) => go w1 (tr ++ ob) r | _ => False end end) w tr ls ->
     kept_exec lg w0 tr' w').
  { induction ls as [|l ls IH]; intros w0 tr w tr' w' X H; [destruct H as [<- <-]; exact X|]. destruct H as [H1 H2].
    destruct (lwstep lg w l) as [[[w1 ob]| | |]|] eqn:E; try contradiction. eapply IH; [|exact H2]. econstructor; eauto. }
  destruct (lrun lg (lstart lg 2) [] (lth 1 (CFirst 7 lka 5 true) false 7 ++ lth 0 (CGet 7 lka) false 5)) as [[tr w]|] eqn:E; [|vm_compute in E; discriminate].
  exists tr, w. vm_compute in E. injection E as <- <-. split; [|cbn; tauto].
  eapply (R (lth 1 (CFirst 7 lka 5 true) false 7 ++ lth 0 (CGet 7 lka) false 5)); [apply ke_nil|].
  cbn [lth repeat app].
  repeat (split; [intros j a seen c again o i x Q P; injection Q as <- <- <-; vm_compute in P; try discriminate P; injection P as <- <- <- <- <-; vm_compute; auto|];
    match goal with |- context [lwstep lg ?w ?l] => let r := eval vm_compute in (lwstep lg w l) in change (lwstep lg w l) with r; cbv iota beta; cbn [app] end).
  split; reflexivity.
Qed.

Example one_queue_example : exists tr w, packets_exec lg (lstart lg 1) tr w /\ In (Returned lka 0 (Some 5)) tr.
Proof.
  assert (R : forall j a ls w0 tr w tr' w', packets_exec lg w0 tr w -> Forall (fun l => l = LLThread j a 0) ls -> lrun lg w tr ls = Some (tr', w') -> packets_exec lg w0 tr' w').
  { induction ls as [|l ls IH]; intros w0 tr w tr' w' X F H; cbn [lrun] in H; [injection H as <- <-; exact X|]. inversion F as [|? ? -> F2]; subst.
    destruct (lwstep lg w _) as [[[w1 ob]| | |]|] eqn:E; try discriminate. eapply IH; [|exact F2|exact H]. econstructor; eauto. }
  destruct (lrun lg (lstart lg 1) [] (lth 0 (CFirst 7 lka 5 true) false 7)) as [[tr w]|] eqn:E; [|vm_compute in E; discriminate].
  destruct (lrun lg w tr (lth 0 (CGet 7 lka) false 5)) as [[tr' w']|] eqn:E'; [|vm_compute in E; injection E as <- <-; vm_compute in E'; discriminate].
  exists tr', w'. split.
  - eapply R; [eapply R; [apply qe_nil| |exact E]| |exact E']; apply Forall_forall; intros l I; apply repeat_spec in I; exact I.
  - vm_compute in E. injection E as <- <-. vm_compute in E'. injection E' as <- _. cbn. tauto.
Qed.

(** A first fragment in one thread, then another fragment in the other one *)
Example calls_example : exists tr w, calls_exec lg (lstart lg 2) tr w /\ In (Returned lka 0 (Some 5)) tr.
Proof.
  assert (R : forall ls w0 tr w tr' w', calls_exec lg w0 tr w ->
     (fix go (w : lworld) (tr : list obs) (ls : list llabel) : Prop := match ls with [] => tr = tr' /\ w = w' | l :: r => alone w l /\ match lwstep lg w l with Some (Ok (w1, ob)) => go w1 (tr ++ ob) r | _ => False end end) w tr ls ->
     calls_exec lg w0 tr' w').
  { induction ls as [|l ls IH]; intros w0 tr w tr' w' X H; [destruct H as [<- <-]; exact X|]. destruct H as [H1 H2].
    destruct (lwstep lg w l) as [[[w1 ob]| | |]|] eqn:E; try contradiction. eapply IH; [|exact H2]. econstructor; eauto. }
  destruct (lrun lg (lstart lg 2) [] (lth 1 (CFirst 7 lka 5 true) false 7 ++ lth 0 (CGet 7 lka) false 5)) as [[tr w]|] eqn:E; [|vm_compute in E; discriminate].
  exists tr, w. vm_compute in E. injection E as <- <-. split; [|cbn; tauto].
  eapply (R (lth 1 (CFirst 7 lka 5 true) false 7 ++ lth 0 (CGet 7 lka) false 5)); [apply ca_nil|].
  cbn [lth repeat app].
  repeat (split; [intros i p Z NE; assert (K : i = 0 \/ i = 1) by (pose proof (znth_some_range _ _ _ _ Z) as K; vm_compute in K; destruct K; destruct i as [|[?|?|]|]; try (exfalso; tauto); auto; exfalso; destruct p0; congruence);
      destruct K as [->| ->]; try (exfalso; apply NE; reflexivity); vm_compute in Z; injection Z as <-; reflexivity|];
    match goal with |- context [lwstep lg ?w ?l] => let r := eval vm_compute in (lwstep lg w l) in change (lwstep lg w l) with r; cbv iota beta; cbn [app] end).
  split; reflexivity.
Qed.
