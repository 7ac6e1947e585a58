(** What the load-balancer objects of flowlb should do (C43, C44), and the
    decisions for packets (C42, C48). *)
From Coq Require Import String.
From Verif Require Import Base Cstr_Model IpKey_Model Maglev_Model Flow_Model Flow_Spec Remote_Model FlowLb_Model.

(** ** Executions: packets, commands and other processes in any order, with
    any interleaving of their steps.  [may w m] restricts the moves. *)
Inductive exec (h : hconf) (may : world -> move -> Prop) : world -> list (move * list event) -> world -> Prop :=
| ex_nil : forall w, exec h may w [] w
| ex_step : forall w tr w1 m ev w2, exec h may w tr w1 -> may w1 m -> step h w1 m = Some (Cont w2 ev) ->
    exec h may w (tr ++ [(m, ev)]) w2.

(** ** Who refers to an object *)

(** Flows *)
Definition flows (s : state) (a : Z) : Z := zlen (filter (fun f => f_ref f =? a) (t_set s)).
(** Packets between their lookup and their release *)
Definition count (e : event -> bool) (l : list event) : Z := zlen (filter e l).
Definition took (a : Z) (e : event) : bool := match e with Took b => b =? a | _ => false end.
Definition gave (a : Z) (e : event) : bool := match e with Gave b => b =? a | _ => false end.
Definition by_packets (tr : list (move * list event)) : list event :=
  flat_map (fun x => match fst x with PacketStep _ => snd x | _ => [] end) tr.
Definition lookups (tr : list (move * list event)) (a : Z) : Z :=
  count (took a) (by_packets tr) - count (gave a) (by_packets tr).

Definition live (s : state) (a : Z) : Prop := exists o, deref s a = Some o.
Definition references (s : state) (a : Z) : Z := match deref s a with Some o => lb_ref o | None => 0 end.
(** No thread is at work. *)
Definition quiescent (w : world) : Prop :=
  idle (w_flow w) = true /\ Forall (fun p => idle p = true) (w_pk w).

(** ** The circumstances under which the objects are handled properly *)

(** Names beginning with # are those of the udp companions. *)
Definition own_name (n : chars) : Prop := forall r, n <> 35 :: r.

(** A request that is not refused for what it says *)
Definition valid_request (L : libc) (c : flowcmd) : Prop :=
  exists n, c_name c = Some n /\ zlen n <= 1000 /\ (exists r, means L (cmdArgs c n 0) r) /\
    0 <= c_udpencap c < 65536 /\
    (c_udpencap c <> 0 -> exists p, c_protocols c = Some [p] /\ any_case p (str "sctp")).
Definition good_command (L : libc) (c : flowcmd) : Prop :=
  (forall n, c_name c = Some n -> own_name n) /\
  (c_action c = Some (str "set") -> valid_request L c).

(** Not a UDP packet to port 0; rc is 2 for fragments other than the first *)
Definition good_packet (eth : Z) (data : list Z) : Prop :=
  forall rc k fi, getHashKey (S (length data)) 0 eth data = Ok (Some (rc, k, fi)) -> Z.land rc 3 <> 2 ->
    ~ (kproto k = 17 /\ kdport k = 0).

(** The moves allowed: good commands and packets; no flow gets another
    target; a target is not searched for while its object, given back by
    everyone, is not yet unlinked; there are less than 2^31 references. *)
Definition orderly (h : hconf) (w : world) (m : move) : Prop :=
  zlen (w_pk w) + zlen (t_set (w_st w)) + 2 < 2147483648 /\
  match m with
  | Arrive _ _ eth data => good_packet eth data
  | Command c => good_command (h_lib h) c
  | FlowStep =>
      match w_flow w with
      | Act (Find t) _ =>
          forall a o, In a (t_list (w_st w)) -> deref (w_st w) a = Some o -> lb_target o = t -> lb_ref o <> 0
      | Act Retarget _ => False
      | _ => True
      end
  | _ => True
  end.
Definition anything (w : world) (m : move) : Prop := True.
