(** A look-up that returns another entry (C92): executions. *)
From Verif Require Import Base Lists IpKey_Model Conntrack_Model Conntrack_Spec Frag_Model Frag_Spec Late_Model Late_Spec.

Fixpoint lrun (g : conf) (w : lworld) (tr : list obs) (ls : list llabel) : option (list obs * lworld) :=
  match ls with
  | [] => Some (tr, w)
  | l :: r => match lwstep g w l with Some (Ok (w', ob)) => lrun g w' (tr ++ ob) r | _ => None end
  end.
Lemma lrun_exec : forall g ls w0 tr w tr' w', lexec g w0 tr w -> lrun g w tr ls = Some (tr', w') -> lexec g w0 tr' w'.
Proof.
  intros g. induction ls as [|l ls IH]; intros w0 tr w tr' w' E H; cbn [lrun] in H; [injection H as <- <-; assumption|].
  destruct (lwstep g w l) as [[[w1 ob]| | |]|] eqn:Ew; try discriminate. eapply IH; [|exact H]. econstructor; eauto.
Qed.

Definition lg := mkConf 1 2 3 100 200.
Definition lka : ckey := [1; 2; 3].
Definition lkb : ckey := [9].
Definition lth (i : Z) (c : call) (fin : bool) (n : nat) : list llabel := repeat (LLThread i (mkChoice c fin false) 0) n.
(** The first fragment of datagram a comes; then the second one, in thread 0, which is stopped in
    the look-up; the last one completes the datagram in thread 1, which removes the entry.  No time
    passes. *)
Definition removed_meanwhile : list llabel :=
  lth 1 (CFirst 7 lka 5 true) false 7 ++ lth 0 (CStore 7 lka [1]) false 1 ++ lth 1 (CStore 7 lka [2]) true 6.
(** The first fragment of datagram b comes in thread 1, and takes the bucket; thread 0 goes on. *)
Definition other_meanwhile : list llabel := removed_meanwhile ++ lth 1 (CFirst 7 lkb 6 true) false 7 ++ lth 0 (CStore 7 lka [1]) false 5.
(** Thread 0 goes on, and stores its fragment in a new entry, which expires. *)
Definition lost_meanwhile : list llabel := removed_meanwhile ++ lth 0 (CStore 7 lka [1]) false 9 ++ [LLStats 0 300000007].

(** Thread 0 is told the value of datagram b. *)
Lemma other_value : exists tr w, lexec lg (lstart lg 2) tr w /\ In (Returned lka 0 (Some 6)) tr /\ ~ In (Accepted lka 6) tr.
Proof.
  destruct (lrun lg (lstart lg 2) [] other_meanwhile) as [[tr w]|] eqn:E; [|vm_compute in E; discriminate].
  exists tr, w. split; [eapply lrun_exec; [apply le_nil|exact E]|].
  vm_compute in E. injection E as <- _. split; [cbn; tauto|]. cbn. intros H. repeat destruct H as [H|H]; try discriminate; assumption.
Qed.
(** It has given back the reference of the table to the object of datagram b: nobody is in a call,
    the object is free, and the next fragment of datagram b is a use of it. *)
Lemma other_released : exists tr w l, lexec lg (lstart lg 2) tr w /\ (forall p, In p (l_pcs w) -> p = At Idle) /\ lfails lg w l.
Proof.
  destruct (lrun lg (lstart lg 2) [] other_meanwhile) as [[tr w]|] eqn:E; [|vm_compute in E; discriminate].
  exists tr, w, (LLThread 1 (mkChoice (CGet 7 lkb) false false) 0). split; [eapply lrun_exec; [apply le_nil|exact E]|].
  vm_compute in E. injection E as _ <-. split; [intros p Hp; cbn in Hp; repeat destruct Hp as [Hp|Hp]; subst; try reflexivity; contradiction|].
  eexists. split; [vm_compute; reflexivity|intros x Hx; discriminate].
Qed.
(** Nobody is in a call and the table is empty, but an object is allocated. *)
Lemma object_lost : exists tr w, lexec lg (lstart lg 2) tr w /\ (forall p, In p (l_pcs w) -> p = At Idle) /\ stored_data (s_ct (l_sys w)) = [] /\ s_objs (l_sys w) <> [].
Proof.
  destruct (lrun lg (lstart lg 2) [] lost_meanwhile) as [[tr w]|] eqn:E; [|vm_compute in E; discriminate].
  exists tr, w. split; [eapply lrun_exec; [apply le_nil|exact E]|].
  vm_compute in E. injection E as _ <-. split; [intros p Hp; cbn in Hp; repeat destruct Hp as [Hp|Hp]; subst; try reflexivity; contradiction|].
  split; [vm_compute; reflexivity|discriminate].
Qed.
