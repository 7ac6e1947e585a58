(** C90: no packet is held up for ever. *)
From Coq Require Import String.
From Verif Require Import Base Lists Cstr_Model IpKey_Model Maglev_Model FlowLb_Model FlowLb_Spec FlowLb4_Proofs Lb_Model Lb_Spec LbEx_Proofs Steer_Spec SteerEx_Proofs Tier_Model Tier_Spec Tier4_Proofs
  Soon_Spec Soon_Proofs.

(** C90 - flowlb: the handler of a packet makes at most 11 steps, whatever other threads, commands
    and processes do in between; and as long as there is no verdict, it can make one. *)
Theorem C90_flowlb : forall h may shm mem tr w i, exec h may (start h shm mem) tr w ->
  0 <= packet_steps i tr <= 11 /\
  forall p, znth (w_pk w) i = Some p -> (exists v, p = Ret (Verdict v)) \/ packet_steps i tr < 11 /\ step h w (PacketStep i) <> None.
Proof. exact flowlb_soon. Qed.
Print Assumptions C90_flowlb.
(** lb: at most 5 *)
Theorem C90_lb : forall g mem tr w i, lexec g (lstart g mem) tr w ->
  0 <= lpacket_steps i tr <= 5 /\
  forall p, znth (lw_pk w) i = Some p -> (exists v, p = Ret (Verdict v)) \/ lpacket_steps i tr < 5 /\ lstep g w (LStep i) <> None.
Proof. exact lb_soon. Qed.
Print Assumptions C90_lb.
(** The LB tier: a packet is taken, handled and let go with at most 26 moves in all, if the
    load-balancers see the same table of the tier from before it came; 39 more from the time when
    they see the same. *)
Theorem C90_tier : forall H node peer enc T, tier_setup H node peer enc -> forall shm mem s0 s p k,
  nexec H node peer (tier_marks H node peer) (nstart H shm mem) s0 -> work H node peer (tier_env H node peer T) p s0 s k ->
  k <= match znth (n_pk s0) p with Some _ => 39 | None => 26 end.
Proof. exact tier_moves. Qed.
Print Assumptions C90_tier.
(** Also while the tables differ: at most 13 for each time it is passed on, and 13. *)
Theorem C90_hop : forall H node peer env env' shm mem s0 s p k q,
  nexec H node peer env (nstart H shm mem) s0 -> work H node peer env' p s0 s k -> znth (n_pk s) p = Some q ->
  k <= 13 * (q_hops q - match znth (n_pk s0) p with Some q0 => q_hops q0 | None => 0 end + 1).
Proof. exact moves_hops. Qed.
Print Assumptions C90_hop.
(** A packet that has not left can go on, whatever the others wait for, unless its load-balancer
    fails. *)
Theorem C90_goes_on : forall H node peer env shm mem s p q, (forall v j, peer v = Some j -> node j = true) ->
  nexec H node peer env (nstart H shm mem) s -> znth (n_pk s) p = Some q ->
  done q \/ fails H s q \/ exists m s', concerns p s m = true /\ nstep H node peer s m = Some s'.
Proof. exact goes_on. Qed.
Print Assumptions C90_goes_on.
(** So it leaves also if nobody else does anything. *)
Theorem C90_leaves : forall H node peer enc T, tier_setup H node peer enc -> forall shm mem s0 s p q,
  nexec H node peer (tier_marks H node peer) (nstart H shm mem) s0 -> nexec H node peer (tier_env H node peer T) s0 s -> znth (n_pk s) p = Some q ->
  exists s' q', alone H node peer p s s' /\ znth (n_pk s') p = Some q' /\ (done q' \/ fails H s' q').
Proof. exact tier_leaves. Qed.
Print Assumptions C90_leaves.

(** The flow is deleted while the packet has its object: it is the packet that releases it. *)
Example C90_ex : exists tr w, exec (t_o 1) anything (start (t_o 1) ex_shm (e_mem 1)) tr w /\ packet_steps 0 tr = 9 /\ znth (w_pk w) 0 = Some (Ret (Verdict 101)).
Proof.
  assert (X : match play nochk (t_o 1) (start (t_o 1) ex_shm (e_mem 1)) (Command (plain "a" "t1") :: fs 3 ++ Arrive 1 false 2048 f1 :: ps 0 3 ++ Command (delcmd (str "a")) :: fs 2 ++ ps 0 6) with
    | Some (w, tr) => packet_steps 0 tr = 9 /\ znth (w_pk w) 0 = Some (Ret (Verdict 101)) | None => False end) by (vm_compute; auto).
  destruct (play nochk _ _ _) as [[w tr]|] eqn:E; [|destruct X]. exists tr, w. split; [|exact X]. eapply play_exec; [|exact E]. intros; exact I.
Qed.
Example C90_lb_ex : exists tr w, lexec c48_lb (lstart c48_lb ex_mem) tr w /\ lpacket_steps 0 tr = 2 /\ znth (lw_pk w) 0 = Some (Ret (Verdict 101)).
Proof.
  assert (X : match lplay c48_lb (lstart c48_lb ex_mem) [LArrive 1 false 2048 ex_encap; LStep 0; LStep 0] with
    | Some w => znth (lw_pk w) 0 = Some (Ret (Verdict 101)) | None => False end) by (vm_compute; auto).
  destruct (lplay c48_lb _ _) as [w|] eqn:E; [|destruct X]. exists [LArrive 1 false 2048 ex_encap; LStep 0; LStep 0], w. split; [apply (lplay_exec _ _ _ _ E)|]. split; [reflexivity|exact X].
Qed.
(** The first fragment, which was on its way, and one that comes later *)
Example C90_tier_ex : tier_setup e_h two towards 0 /\ exists s0 s, nexec e_h two towards (tier_marks e_h two towards) d_start s0 /\
  work e_h two towards (tier_env e_h two towards (tab 2)) 0 s0 s 9 /\ work e_h two towards (tier_env e_h two towards (tab 2)) 1 s0 s 9 /\
  n_pk s0 = [mkPkt 2048 f1 2 (Wire 1)] /\ n_pk s = [mkPkt 2048 f1 2 (Sent 1 101); mkPkt 2048 f3 1 (Sent 1 101)].
Proof.
  split; [exact setup2|].
  assert (X : match nplay false d_start d_before with
              | Some s0 => envb true s0 = true /\ n_pk s0 = [mkPkt 2048 f1 2 (Wire 1)] /\ count 0 s0 d_after = 9 /\ count 1 s0 d_after = 9 /\
                  match nplay true s0 d_after with Some s => n_pk s = [mkPkt 2048 f1 2 (Sent 1 101); mkPkt 2048 f3 1 (Sent 1 101)] | None => False end
              | None => False end) by (vm_compute; auto 10).
  destruct (nplay false d_start d_before) as [s0|] eqn:E0; [|destruct X]. destruct X as (B & P0 & K0 & K1 & X). destruct (nplay true s0 d_after) as [s|] eqn:E1; [|destruct X].
  exists s0, s. split; [|split; [|split; [|auto]]].
  - apply (nplay_exec false _ d_before d_start); [|exact E0]. apply nx_start. destruct (envb_ok false d_start) as (A & _); [vm_compute; reflexivity|exact A].
  - rewrite <- K0. apply (nplay_work 0 s0 d_after s0 s 0); [|exact E1]. apply wk_start. apply (envb_ok true s0 B). reflexivity.
  - rewrite <- K1. apply (nplay_work 1 s0 d_after s0 s 0); [|exact E1]. apply wk_start. apply (envb_ok true s0 B). reflexivity.
Qed.
