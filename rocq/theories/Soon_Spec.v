(** No packet is held up for ever (C90). *)
From Verif Require Import Base FlowLb_Model FlowLb_Spec Lb_Model Lb_Spec Tier_Model Tier_Spec.

(** Steps of the handler of packet number [i] *)
Definition packet_steps (i : Z) (tr : list (move * list event)) : Z :=
  zlen (filter (fun x => match fst x with PacketStep j => j =? i | _ => false end) tr).
Definition lpacket_steps (i : Z) (tr : list lmove) : Z :=
  zlen (filter (fun m => match m with LStep j => j =? i | _ => false end) tr).

(** ** The LB tier *)
(** The move is one of packet [p]: it is taken, leaves, or its handler makes a step. *)
Definition concerns (p : Z) (s : net) (m : nmove) : bool :=
  match m with
  | NTake p' _ _ | NLeave p' => p' =? p
  | NStep i (PacketStep n) =>
      match znth (n_pk s) p with
      | Some q => match q_at q with Inside i' n' => (i' =? i) && (n' =? n) | _ => false end
      | None => false
      end
  | _ => false
  end.
(** An execution in which [k] moves are those of packet [p] *)
Inductive work (H : Z -> kind) (node : Z -> bool) (peer : Z -> option Z) (env : net -> Prop) (p : Z) (s0 : net) : net -> Z -> Prop :=
| wk_start : env s0 -> work H node peer env p s0 s0 0
| wk_step : forall s k m s', work H node peer env p s0 s k -> nstep H node peer s m = Some s' -> env s' ->
    work H node peer env p s0 s' (k + if concerns p s m then 1 else 0).
(** From [s] to [s'] with moves of packet [p] only *)
Inductive alone (H : Z -> kind) (node : Z -> bool) (peer : Z -> option Z) (p : Z) (s0 : net) : net -> Prop :=
| al_start : alone H node peer p s0 s0
| al_step : forall s m s', alone H node peer p s0 s -> concerns p s m = true -> nstep H node peer s m = Some s' -> alone H node peer p s0 s'.
(** The load-balancer that has the packet is about to fail. *)
Definition fails (H : Z -> kind) (s : net) (q : pkt) : Prop :=
  exists i n, q_at q = Inside i n /\ (pstep (H i) (n_node s i) (PacketStep n) = Some Bad \/ pstep (H i) (n_node s i) (PacketStep n) = Some Halt).
(** The packet has left the tier. *)
Definition done (q : pkt) : Prop := exists i, left_at q i.
