(** What the server should get from a flow-set command line. *)
From Coq Require Import String.
From Verif Require Import Base Cstr_Model Util_Spec Remote_Model Remote_Spec Opt_Model Opt_Spec.

(** The command c is what the options on the line ask for. *)
Definition asked (its : list item) (c : flowcmd) : Prop :=
  let val := value_of flowSetOpts its in
  c_action c = Some (str "set") /\
  (c_name c <> None /\ val "name"%string (c_name c)) /\
  (c_target c <> None /\ val "target"%string (c_target c)) /\
  (exists v, val "prio"%string v /\ c_priority c = number v) /\
  (exists v, val "protocols"%string v /\ items (str ", ") v (c_protocols c)) /\
  val "dports"%string (c_dports c) /\
  val "sports"%string (c_sports c) /\
  (exists v, val "dsts"%string v /\ items (str ", ") v (c_dsts c)) /\
  (exists v, val "srcs"%string v /\ items (str ", ") v (c_srcs c)) /\
  (exists v, val "match"%string v /\ items (str ",") v (c_match c)) /\
  (exists v, val "udpencap"%string v /\ c_udpencap c = number v mod 65536).

(** The line has nothing in it that the protocol cannot carry: no newline,
    and name, priority and udpencap of at most 1000 characters (the client
    checks the others). *)
Definition sendable (its : list item) (tail : option (list chars)) : Prop :=
  Forall plain (line its tail) /\
  forall n v, In n ["name"; "prio"; "udpencap"]%string -> value_of flowSetOpts its n (Some v) -> zlen v <= 1000.
