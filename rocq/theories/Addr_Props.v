(** Servers, clients and their addresses on a host (C82). *)
From Coq Require Import String.
From Verif Require Import Base Lists Cstr_Model Rangeset_Spec Util_Proofs Opt_Model Opt_Spec Opt_Proofs Start_Proofs Addr_Model Addr_Spec Addr_Proofs Addr2_Proofs.

(** ** C82

    Whatever load-balancers, clients and their threads do: a client that gets a
    connection has it to a server of a process that runs, and that was started with the
    same name (or a TCP address at which the client's arrives). *)
Theorem C82_reaches : forall N tr w t1 c t k s t2,
  net_ok N -> aexec N anything tr w -> tr = t1 ++ Reached c t k s :: t2 ->
  exists t', running t1 k s = Some t' /\ same_place N t t'.
Proof. intros N tr w t1 c t k s t2 K E H. exact (reach_ok N anything tr w K E t1 c t k s t2 H). Qed.
Print Assumptions C82_reaches.

(** As long as this process runs, all clients with this address come to the same
    server. *)
Theorem C82_same_server : forall N tr w t1 c t k s t2 c' k' s' t3,
  net_ok N -> aexec N anything tr w -> tr = t1 ++ Reached c t k s :: t2 ++ Reached c' t k' s' :: t3 ->
  (forall e, In e t2 -> ~ ends_of k e) -> k' = k /\ s' = s.
Proof. intros N tr w t1 c t k s t2 c' k' s' t3 K E H D. exact (reach_same N anything tr w K E t1 c t k s t2 c' k' s' t3 H D). Qed.
Print Assumptions C82_same_server.

(** The lines of lb and flowlb, with $NFQLB_FLOW_ADDRESS, say which addresses these
    are. *)
Theorem C82_lines : forall N w l k s t, a_thr w k = None -> starts l k s t ->
  exists w' tr fl, astep N w l = Some (w', [Began k tr fl]) /\ match s with TraceServer => tr = t | FlowServer => fl = Some t end.
Proof.
  intros N w l k s t Z S. destruct (start_step N w l k s t Z S) as (w' & tr & fl & f & H & T & _). exists w', tr, fl. split; assumption.
Qed.
Print Assumptions C82_lines.

(** No process dies of its servers as long as the addresses of those that run can
    be used and are different.
    Missing: without the condition it is false, see below. *)
Theorem C82_nobody_dies_partial : forall N tr w k,
  net_ok N -> aexec N bind_works tr w -> apart N tr -> ~ In (Died k) tr /\ ~ In (Crashed k) tr.
Proof. intros N tr w k K E A. exact (nobody_dies N tr w K E A k). Qed.
Print Assumptions C82_nobody_dies_partial.

(** ... and every server of a process that runs can be reached by clients with its
    address, once its thread has had its turns. *)
Theorem C82_reachable_partial : forall N tr w k s t l c,
  net_ok N -> aexec N bind_works tr w -> apart N tr -> running tr k s = Some t -> client_of l c t ->
  exists i w', arun N w (repeat (LThread k s) i ++ [l]) = Some (w', [Reached c t k s]).
Proof. exact reachable. Qed.
Print Assumptions C82_reachable_partial.

(** False: load-balancers can run side by side.  One that is started with an address
    at which another one was reached dies, after it has begun to serve: two
    load-balancers without --trace_address, or two flowlb with the same
    $NFQLB_FLOW_ADDRESS. *)
Theorem C82_second_refuted : forall N tr w c t k s l k2 s2,
  net_ok N -> aexec N anything (tr ++ [Reached c t k s]) w -> a_thr w k2 = None -> starts l k2 s2 t ->
  exists w' u fl, arun N w [l; LThread k2 s2] = Some (w', [Began k2 u fl; Died k2]).
Proof. intros N tr w c t k s l k2 s2. exact (second_dies N anything tr w c t k s l k2 s2). Qed.
Print Assumptions C82_second_refuted.

(** False: every name is accepted or refused.  From 108 characters on the process
    starts and then dies; from 125 on the name is copied beyond the address. *)
Theorem C82_long_name_refuted : forall N w l k s n,
  a_thr w k = None -> starts l k s (str "unix:" ++ n) -> 108 <= zlen n ->
  exists w' u fl, arun N w [l; LThread k s] = Some (w', [Began k u fl; if zlen n <=? 124 then Died k else Crashed k]).
Proof. exact long_name. Qed.
Print Assumptions C82_long_name_refuted.

(** ** Examples *)
(** At most 126 characters of host and port *)
Definition ex_net : net := mkNet (fun h p => if 126 <? zlen (h ++ p) then None else Some ([2; 0] ++ h ++ p)) (fun _ _ => true) streq.
Example C82_net_ex : net_ok ex_net.
Proof.
  split; [|split; [reflexivity|split; [exact streq_refl|reflexivity]]]. intros h p a. cbn [n_gai ex_net]. destruct (Z.ltb_spec 126 (zlen (h ++ p))); [discriminate|].
  intro H'. injection H' as <-. split; [unfold zlen in *; cbn [app length]; lia|discriminate].
Qed.
(** lb with the default, flowlb with another trace address; a client of each server *)
Definition ex_run : list alabel :=
  [LLb 1 [str "--queue=3"]; LThread 1 TraceServer; LFlowLb 2 None [str "--trace_address=unix:other"]; LThread 2 FlowServer; LThread 1 TraceServer;
   LThread 2 FlowServer; LThread 2 TraceServer; LFlowClient 8 None; LTraceClient 9 []; LTraceClient 10 [str "--trace_address"; str "unix:other"]; LThread 2 TraceServer;
   LTraceClient 11 [str "--trace_address"; str "unix:other"]].
Definition ex_events : list aev :=
  [Began 1 (str "unix:nfqlb-trace") None; Began 2 (str "unix:other") (Some (str "unix:nfqlb")); Reached 8 (str "unix:nfqlb") 2 FlowServer;
   Reached 9 (str "unix:nfqlb-trace") 1 TraceServer; NotReached 10 (str "unix:other"); Reached 11 (str "unix:other") 2 TraceServer].
Example C82_run_ex : exists w, arun ex_net noOne ex_run = Some (w, ex_events).
Proof. eexists. vm_compute. reflexivity. Qed.
Example C82_apart_ex : apart ex_net ex_events.
Proof.
  intros t1 t2 H.
  assert (R : forall k s t, running t1 k s = Some t -> k = 1 /\ s = TraceServer /\ t = str "unix:nfqlb-trace" \/ k = 2 /\ s = TraceServer /\ t = str "unix:other" \/
    k = 2 /\ s = FlowServer /\ t = str "unix:nfqlb").
  { intros k s t Q. unfold ex_events in H.
    destruct t1 as [|e1 t1]; [discriminate|]. injection H as <- H.
    assert (B : forall l, (forall e, In e l -> match e with Reached _ _ _ _ | NotReached _ _ => True | _ => False end) -> forall r, fold_left (running_step k s) l r = r).
    { induction l as [|e l IH]; intros F r; [reflexivity|]. cbn [fold_left]. rewrite IH by (intros e' I'; apply F; right; exact I').
      specialize (F e (or_introl eq_refl)). destruct e; try contradiction; reflexivity. }
    destruct t1 as [|e2 t1].
    { unfold running in Q. cbn [fold_left running_step] in Q. destruct (Z.eqb_spec 1 k) as [<-|]; [|discriminate]. destruct s; [|discriminate]. injection Q as <-. auto. }
    injection H as <- H. unfold running in Q. cbn [fold_left running_step] in Q. rewrite B in Q.
    - destruct (Z.eqb_spec 2 k) as [<-|].
      + destruct s; injection Q as <-; auto.
      + destruct (Z.eqb_spec 1 k) as [<-|]; [|discriminate]. destruct s; [|discriminate]. injection Q as <-. auto.
    - intros e I'. assert (J : In e (t1 ++ t2)) by (apply in_or_app; left; exact I'). rewrite <- H in J. cbn [In] in J. intuition subst; exact Logic.I. }
  assert (U : forall n a, addr_of ex_net (str "unix:" ++ n) a -> a = [1; 0; 0] ++ n).
  { intros n a [(m & X & _ & ->)|(h & p & v & [(X & _)|(X & _)] & _)]; [apply app_inv_head in X; subst; reflexivity|discriminate X|discriminate X]. }
  split.
  - intros k s t Q. destruct (R k s t Q) as [(_ & _ & ->)|[(_ & _ & ->)|(_ & _ & ->)]]; eexists; left.
    + exists (str "nfqlb-trace"). split; [reflexivity|]. split; [vm_compute; discriminate|reflexivity].
    + exists (str "other"). split; [reflexivity|]. split; [vm_compute; discriminate|reflexivity].
    + exists (str "nfqlb"). split; [reflexivity|]. split; [vm_compute; discriminate|reflexivity].
  - intros k s t a k' s' t' a' Q A Q' A' D.
    assert (A1 : a = [1; 0; 0] ++ skipn 5 t). { destruct (R k s t Q) as [(_ & _ & ->)|[(_ & _ & ->)|(_ & _ & ->)]]; apply U; exact A. }
    assert (A2 : a' = [1; 0; 0] ++ skipn 5 t'). { destruct (R k' s' t' Q') as [(_ & _ & ->)|[(_ & _ & ->)|(_ & _ & ->)]]; apply U; exact A'. }
    subst a a'.
    destruct (R k s t Q) as [(-> & -> & ->)|[(-> & -> & ->)|(-> & -> & ->)]]; destruct (R k' s' t' Q') as [(-> & -> & ->)|[(-> & -> & ->)|(-> & -> & ->)]]; try (vm_compute; reflexivity); exfalso; apply D; reflexivity.
Qed.
(** The defaults: the second load-balancer dies. *)
Example C82_defaults_ex : exists w,
  arun ex_net noOne [LLb 1 []; LThread 1 TraceServer; LThread 1 TraceServer; LTraceClient 9 []; LFlowLb 2 None [str "--queue=3"; str "--ft_shm=other"]; LThread 2 TraceServer] =
  Some (w, [Began 1 (str "unix:nfqlb-trace") None; Reached 9 (str "unix:nfqlb-trace") 1 TraceServer; Began 2 (str "unix:nfqlb-trace") (Some (str "unix:nfqlb")); Died 2]).
Proof. eexists. vm_compute. reflexivity. Qed.
Example C82_starts_ex : starts (LFlowLb 2 (Some (str "unix:x")) []) 2 FlowServer (str "unix:x") /\ starts (LLb 1 []) 1 TraceServer (str "unix:nfqlb-trace").
Proof.
  split; (split; [reflexivity|]); [|split; [reflexivity|]]; exists [], None; (split; [reflexivity|]); (split; [constructor|]); [left; reflexivity|].
  exists 16, (val "trace_address" "unix:nfqlb-trace"). split; [reflexivity|]. split; [reflexivity|]. right. split; [intros it []|]. eexists. split; [reflexivity|reflexivity].
Qed.
