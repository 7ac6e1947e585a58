(** Fragments meet in one load-balancer, whichever they arrive at (C89). *)
From Verif Require Import Base IpKey_Model Maglev_Model FlowLb_Model Lb_Model Lb_Spec Steer_Spec Tier_Model.
From Verif Require Frag_Model Frag_Spec.

(** An execution in which [env] holds of all states *)
Inductive nexec (H : Z -> kind) (node : Z -> bool) (peer : Z -> option Z) (env : net -> Prop) (s0 : net) : net -> Prop :=
| nx_start : env s0 -> nexec H node peer env s0 s0
| nx_step : forall s m s', nexec H node peer env s0 s -> nstep H node peer s m = Some s' -> env s' -> nexec H node peer env s0 s'.

(** The own mark of a load-balancer *)
Definition own (H : Z -> kind) (i : Z) : option Z := match h_tier (opts (H i)) with Some (_, m) => Some m | None => None end.
(** The load-balancer the table of the tier gives for a datagram *)
Definition home_mark (T : mag) (d : dgram) : option Z := table_mark T (djb2 (d_src d ++ d_dst d)).
(** Mark [v] does not lead to a load-balancer. *)
Definition outside (peer : Z -> option Z) (v : Z) : Prop := v < 0 \/ peer v = None.

(** The set-up: every load-balancer has a tier and the routing leads the own mark of a
    load-balancer, and nothing else, to it; what is without target or without flow does not
    go to one; all have the same --udpencap [enc] (0 for flowlb). *)
Record tier_setup (H : Z -> kind) (node : Z -> bool) (peer : Z -> option Z) (enc : Z) : Prop := {
  ts_own : forall i, node i = true -> exists v, own H i = Some v /\ peer v = Some i;
  ts_peer : forall v j, peer v = Some j -> node j = true /\ own H j = Some v;
  ts_none : forall i, node i = true -> outside peer (h_nolb (opts (H i))) /\ outside peer (h_notargets (opts (H i)));
  ts_frag : forall i, node i = true -> Frag_Spec.conf_ok (h_frag (opts (H i)));
  ts_encap : forall i, node i = true -> encap (H i) = enc }.
(** The tables of targets a load-balancer uses *)
Definition targets (c : kind) (s : state) (r : Z) : Prop :=
  match c with Flow _ => exists a o, deref s a = Some o /\ lb_region o = r | Plain g => r = l_target g end.
(** The marks that are active in the table of the tier are of load-balancers, and those of
    targets are not.  The tables may change and need not be the same. *)
Definition tier_marks (H : Z -> kind) (node : Z -> bool) (peer : Z -> option Z) (s : net) : Prop :=
  forall i, node i = true ->
    (forall r o, h_tier (opts (H i)) = Some (r, o) -> Forall (fun v => v < 0 \/ peer v <> None) (mactive (t_mem (w_st (n_node s i)) r))) /\
    forall r, targets (H i) (w_st (n_node s i)) r -> Forall (outside peer) (mactive (t_mem (w_st (n_node s i)) r)).
(** All load-balancers see [T] as the table of the tier. *)
Definition tier_env (H : Z -> kind) (node : Z -> bool) (peer : Z -> option Z) (T : mag) (s : net) : Prop :=
  tier_marks H node peer s /\ forall i, node i = true -> tier_table (opts (H i)) T (w_st (n_node s i)).

(** The packet is a fragment of [d]. *)
Definition fragment (enc : Z) (q : pkt) (first : bool) (d : dgram) : Prop := frag_of enc (q_eth q) (q_data q) first d.
(** The packet left the tier at load-balancer [i]. *)
Definition left_at (q : pkt) (i : Z) : Prop := q_at q = Gone i \/ exists v, q_at q = Sent i v.
(** Load-balancer [i] decided to send the packet to target [v]. *)
Definition given (s : net) (q : pkt) (i v : Z) : Prop :=
  q_at q = Sent i v \/ exists n, q_at q = Inside i n /\ znth (w_pk (n_node s i)) n = Some (Ret (Verdict v)).
(** Packet [p] was not there yet, or was before a load-balancer that had not taken it. *)
Definition later (s0 : net) (p : Z) : Prop := znth (n_pk s0) p = None \/ exists q i, znth (n_pk s0) p = Some q /\ q_at q = Wire i.
