(** C87: the end of a fragment table. *)
From Coq Require Import Lia Permutation.
From Verif Require Import Base Lists ItemPool_Model Conntrack_Model Conntrack_Spec Frag_Model Frag_Spec Frag_Proofs Frag3_Proofs Frag_Props FragEnd_Model FragEnd_Spec FragEnd_Proofs.

(** ** C87

    After any execution of any number of threads that are all done, fragTableDestroy gives
    everything back: no entry, bucket or buffer is in use any more, each fragment that still
    waited is discarded once, and the counter says so.  Whatever the field tv_nsec holds that is
    not set.  Signed overflow has to wrap around, and there have to be buffers and extra
    buckets. *)
Theorem C87_all_given_back_partial : forall T g n tr w nsec, conf_seq g -> 0 < g_maxBuckets g -> 0 < g_maxFragments g -> 0 <= T -> T + g_ttl g < UINT64_MAX ->
  exec_by T g (start g n) tr w -> quiet w ->
  exists s' ob, fragTableDestroy true g (w_sys w) nsec = Ok (s', ob) /\ all_back g s' /\ Permutation (discarded_tr ob) (waiting (w_sys w)) /\
    stored_tr ob = [] /\ handed_tr ob = [] /\ s_discarded s' = u32 (zlen (discarded_tr tr) + zlen (waiting (w_sys w))).
Proof. exact end_ok. Qed.
Print Assumptions C87_all_given_back_partial.

(** By the C standard every call is undefined: the largest time_t does not fit when it is
    converted to nanoseconds. *)
Theorem C87_overflow_refuted : forall g s nsec, fragTableDestroy false g s nsec = UB.
Proof. exact end_overflows. Qed.
Print Assumptions C87_overflow_refuted.

(** The header allows 0 stored fragments; the pool is then freed through a pointer that was
    never set.  So it is without extra buckets. *)
Theorem C87_no_buffers_refuted : forall g n tr w nsec wrap, conf_ok g -> exec g (start g n) tr w -> g_maxFragments g = 0 \/ g_maxBuckets g = 0 ->
  fragTableDestroy wrap g (w_sys w) nsec = UB.
Proof. exact end_empty_pool. Qed.
Print Assumptions C87_no_buffers_refuted.

(** *** Examples *)
Lemma wrun_by T g : forall ls w0 tr w tr' w', exec_by T g w0 tr w -> Forall (timed T) ls -> wrun g w tr ls = Some (tr', w') -> exec_by T g w0 tr' w'.
Proof.
  induction ls as [|l ls IH]; intros w0 tr w tr' w' E F H; cbn [wrun] in H; [injection H as <- <-; assumption|]. inversion F; subst.
  destruct (wstep g w l) as [[[w1 ob]| | |]|] eqn:S; try discriminate. eapply IH; [|eassumption|exact H]. eapply by_step; eauto.
Qed.
(** Two threads store fragments of different datagrams; one first fragment comes; one
    fragment still waits. *)
Example C87_ex : exists tr w, exec_by 1000 g1 (start g1 2) tr w /\ quiet w /\ map (fun x => f_data (snd x)) (waiting (w_sys w)) = [[2]] /\
  conf_seq g1 /\ 0 < g_maxBuckets g1 /\ 0 < g_maxFragments g1 /\ 1000 + g_ttl g1 < UINT64_MAX /\
  exists s' ob, fragTableDestroy true g1 (w_sys w) 77 = Ok (s', ob) /\ map (fun x => f_data (snd x)) (discarded_tr ob) = [[2]].
Proof.
  set (ls := th 0 (CStore 1 ka [1]) 3 ++ th 1 (CStore 2 kb [2]) 9 ++ th 0 (CStore 1 ka [1]) 6 ++ th 0 (CFirst 3 ka 5 true) 4).
  set (r := wrun g1 (start g1 2) [] ls). assert (E : exists tr w, r = Some (tr, w)) by (eexists _, _; vm_compute; reflexivity). destruct E as (tr & w & E).
  exists tr, w. split. { eapply wrun_by; [apply by_nil| |exact E]. unfold ls, th, pa. repeat (apply Forall_app; split); apply Forall_forall; intros l H; apply repeat_spec in H; subst l; cbn; lia. }
  assert (X : r = Some (tr, w)) by exact E. clear E. vm_compute in X. injection X as <- <-.
  split; [unfold quiet; cbn; repeat constructor|]. split; [vm_compute; reflexivity|]. split; [unfold conf_seq, conf_ok, g1; cbn [g_hsize g_maxBuckets g_maxFragments]; unfold two32; lia|].
  split; [cbn; lia|]. split; [cbn; lia|]. split; [vm_compute; reflexivity|]. eexists _, _. split; [vm_compute; reflexivity|]. reflexivity.
Qed.
