(** C89: fragments meet in one load-balancer of the LB tier, whichever they arrive at. *)
From Coq Require Import String Permutation.
From Verif Require Import Base Lists Cstr_Model IpKey_Model Maglev_Model Config_Model Config_Spec Maglev_Spec FlowLb_Model Lb_Spec Steer_Spec SteerEx_Proofs Tier_Model Tier_Spec
  Fwmark_Spec Steer_Proofs Tier3_Proofs Tier4_Proofs Tier5_Proofs.

(** C89 - any number of load-balancers, lb and flowlb, each with targets, threads, flows and
    commands of its own, that see the same table of the tier from some time on: a packet that
    comes later is passed on at most once, and only if it is a fragment. *)
Theorem C89_hops : forall H node peer enc T, tier_setup H node peer enc -> forall shm mem s0 s,
  nexec H node peer (tier_marks H node peer) (nstart H shm mem) s0 -> nexec H node peer (tier_env H node peer T) s0 s ->
  forall p q, znth (n_pk s) p = Some q -> znth (n_pk s0) p = None -> q_hops q = 0 \/ q_hops q = 1 /\ exists b d, fragment enc q b d.
Proof. exact tier_hops. Qed.
Print Assumptions C89_hops.
(** A packet that was there before is passed on at most twice from then on. *)
Theorem C89_settles : forall H node peer enc T, tier_setup H node peer enc -> forall shm mem s0 s,
  nexec H node peer (tier_marks H node peer) (nstart H shm mem) s0 -> nexec H node peer (tier_env H node peer T) s0 s ->
  forall p q q0, znth (n_pk s) p = Some q -> znth (n_pk s0) p = Some q0 ->
  q_eth q = q_eth q0 /\ q_data q = q_data q0 /\ q_hops q0 <= q_hops q <= q_hops q0 + 2.
Proof. exact tier_settles. Qed.
Print Assumptions C89_settles.
(** A fragment is sent to a target, or dropped, by the load-balancer the table gives for its
    addresses; if the table gives none, by the one it arrived at. *)
Theorem C89_home : forall H node peer enc T, tier_setup H node peer enc -> forall shm mem s0 s,
  nexec H node peer (tier_marks H node peer) (nstart H shm mem) s0 -> nexec H node peer (tier_env H node peer T) s0 s ->
  forall p q b d i, znth (n_pk s) p = Some q -> later s0 p -> fragment enc q b d -> left_at q i ->
  home_mark T d = None \/ home_mark T d = own H i.
Proof. exact tier_home. Qed.
Print Assumptions C89_home.
(** So all fragments of a datagram meet in one load-balancer. *)
Theorem C89_meet : forall H node peer enc T, tier_setup H node peer enc -> forall shm mem s0 s,
  nexec H node peer (tier_marks H node peer) (nstart H shm mem) s0 -> nexec H node peer (tier_env H node peer T) s0 s ->
  forall p q p' q' b b' d i j, znth (n_pk s) p = Some q -> znth (n_pk s) p' = Some q' -> later s0 p -> later s0 p' ->
  fragment enc q b d -> fragment enc q' b' d -> left_at q i -> left_at q' j -> home_mark T d <> None -> i = j.
Proof. exact tier_meet. Qed.
Print Assumptions C89_meet.
(** The same of the bytes of the packets: IPv4 or IPv6 fragments from x to y with the same
    identification; of first fragments those that the parser does not reject. *)
Theorem C89_packets : forall H node peer enc T, tier_setup H node peer enc -> forall shm mem s0 s,
  nexec H node peer (tier_marks H node peer) (nstart H shm mem) s0 -> nexec H node peer (tier_env H node peer T) s0 s ->
  forall p q p' q' (b b' : bool) x y id i j, znth (n_pk s) p = Some q -> znth (n_pk s) p' = Some q' -> later s0 p -> later s0 p' ->
  part (q_eth q) (q_data q) b x y id -> part (q_eth q') (q_data q') b' x y id ->
  (b = true -> exists r, getHashKey (S (length (q_data q))) enc (q_eth q) (q_data q) = Ok (Some r)) ->
  (b' = true -> exists r, getHashKey (S (length (q_data q'))) enc (q_eth q') (q_data q') = Ok (Some r)) ->
  left_at q i -> left_at q' j -> table_mark T (djb2 (x ++ y)) <> None -> i = j.
Proof.
  intros H node peer enc T SU shm mem s0 s X0 X p q p' q' b b' x y id i j P P' LT LT' F F' A A' L L' M.
  assert (G : forall eth data c, part eth data c x y id -> (c = true -> exists r, getHashKey (S (length data)) enc eth data = Ok (Some r)) -> frag_of enc eth data c (mkD x y (id_bytes id))).
  { intros eth data [|] PT AC; [destruct (AC eq_refl) as (r & E); exact (part_first _ _ _ _ _ _ _ PT E)|exact (part_other _ _ _ _ _ _ PT)]. }
  exact (tier_meet H node peer enc T SU shm mem s0 s X0 X p q p' q' b b' (mkD x y (id_bytes id)) i j P P' LT LT' (G _ _ _ F A) (G _ _ _ F' A') L L' M).
Qed.
Print Assumptions C89_packets.
(** A fragment other than the first goes to a target that this load-balancer chose for a first
    fragment of the same datagram, also when the tables of the tier change or are not the same. *)
Theorem C89_steered : forall H node peer enc, tier_setup H node peer enc -> forall shm mem s q d i v,
  nexec H node peer (tier_marks H node peer) (nstart H shm mem) s -> In q (n_pk s) -> fragment enc q false d -> q_at q = Sent i v ->
  exists f, In f (n_pk s) /\ fragment enc f true d /\ given s f i v.
Proof. exact tier_steered. Qed.
Print Assumptions C89_steered.
(** Fragments that arrive anywhere reach the same target, unless first fragments of the datagram
    are sent to several. *)
Theorem C89_together : forall H node peer enc T, tier_setup H node peer enc -> forall shm mem s0 s,
  nexec H node peer (tier_marks H node peer) (nstart H shm mem) s0 -> nexec H node peer (tier_env H node peer T) s0 s ->
  forall p q p' q' d i j v w, znth (n_pk s) p = Some q -> znth (n_pk s) p' = Some q' -> later s0 p -> later s0 p' ->
  fragment enc q false d -> fragment enc q' false d -> q_at q = Sent i v -> q_at q' = Sent j w -> home_mark T d <> None ->
  (forall f f' x y, In f (n_pk s) -> In f' (n_pk s) -> fragment enc f true d -> fragment enc f' true d -> given s f i x -> given s f' i y -> x = y) -> i = j /\ v = w.
Proof. exact tier_together. Qed.
Print Assumptions C89_together.

(** It is not enough that the load-balancers have activated the same marks: if they did so in
    another order, a fragment is passed on for ever. *)
Theorem C89_order_refuted : exists H node peer Tn cs1 cs2 m n rand shm mem eth data d,
  reached m n rand cs1 (Tn 1) /\ reached m n rand cs2 (Tn 2) /\ Permutation (mactive (Tn 1)) (mactive (Tn 2)) /\ frag_of 0 eth data false d /\
  (forall i, node i = true <-> i = 1 \/ i = 2) /\ (forall i, node i = true -> exists v, own H i = Some v /\ peer v = Some i /\ In v (mactive (Tn i))) /\
  forall k, exists s q, nexec H node peer (fun s => forall i, node i = true -> tier_table (opts (H i)) (Tn i) (w_st (n_node s i))) (nstart H shm mem) s /\
    n_pk s = [q] /\ q_eth q = eth /\ q_data q = data /\ q_hops q = Z.of_nat k.
Proof.
  exists t_h, two, towards, tab, [Activate [11; 10]], [Activate [10; 11]], 7, 3, t_rand, (fun _ => FlowLb4_Proofs.ex_shm), t_mem2, 2048, f2, fd.
  destruct tabs_reached as (R1 & R2). split; [exact R1|]. split; [exact R2|]. split; [vm_compute; apply perm_swap|]. split; [apply fd_parts|].
  split; [intros i; split; [apply two_cases|intros [->| ->]; reflexivity]|].
  split; [intros i N; exists (9 + i); destruct (two_cases i N) as [->| ->]; vm_compute; auto|].
  intros k. destruct (loop k) as (s & i & X & _ & _ & P). exists s. eexists. split; [exact X|]. split; [exact P|]. auto.
Qed.
Print Assumptions C89_order_refuted.

(** The first load-balancer is flowlb, the second lb.  They see other tables at first. *)
Example C89_ex : tier_setup e_h two towards 0 /\ frag_of 0 2048 f1 true fd /\ frag_of 0 2048 f3 false fd /\ home_mark (tab 2) fd = own e_h 1 /\
  exists s0 s, nexec e_h two towards (tier_marks e_h two towards) d_start s0 /\ nexec e_h two towards (tier_env e_h two towards (tab 2)) s0 s /\
    n_pk s0 = [mkPkt 2048 f1 2 (Wire 1)] /\ n_pk s = [mkPkt 2048 f1 2 (Sent 1 101); mkPkt 2048 f3 1 (Sent 1 101)].
Proof.
  split; [exact setup2|]. split; [apply fd_parts|]. split; [apply fd_parts|]. split; [vm_compute; reflexivity|].
  assert (X : match nplay false d_start d_before with
              | Some s0 => envb true s0 = true /\ n_pk s0 = [mkPkt 2048 f1 2 (Wire 1)] /\
                  match nplay true s0 d_after with Some s => n_pk s = [mkPkt 2048 f1 2 (Sent 1 101); mkPkt 2048 f3 1 (Sent 1 101)] | None => False end
              | None => False end) by (vm_compute; auto).
  destruct (nplay false d_start d_before) as [s0|] eqn:E0; [|destruct X]. destruct X as (B & P0 & X). destruct (nplay true s0 d_after) as [s|] eqn:E1; [|destruct X].
  exists s0, s. split; [|split; [|auto]].
  - apply (nplay_exec false _ d_before d_start); [|exact E0]. apply nx_start. destruct (envb_ok false d_start) as (A & _); [vm_compute; reflexivity|exact A].
  - apply (nplay_exec true _ d_after s0); [|exact E1]. apply nx_start. apply (envb_ok true s0 B). reflexivity.
Qed.
