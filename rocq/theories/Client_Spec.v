(** What the clients of flowlb should do, said without their code. *)
From Coq Require Import String.
From Verif Require Import Base Cstr_Model Util_Spec Remote_Model Remote_Spec Client_Model Opt_Model Opt_Spec.

(** The options of a command, and the action it is for *)
Definition options_of (k : client) : list opt :=
  match k with
  | FlowSet => flowSetOpts
  | TraceSet => traceSetOpts
  | FlowDelete | TraceDelete => nameOpts
  | FlowList | TraceList => listOpts
  | FlowListNames | TraceListNames => noOpts
  end.
Definition action_of (k : client) : string :=
  match k with
  | FlowSet => "set"
  | FlowDelete => "delete"
  | FlowList => "list"
  | FlowListNames => "list-names"
  | TraceSet => "trace-set"
  | TraceDelete => "trace-delete"
  | TraceList => "trace-list"
  | TraceListNames => "trace-list-names"
  end.

(** The value the line has for the option n; None too if the command has no
    such option *)
Definition line_value (k : client) (its : list item) (n : string) (v : option chars) : Prop :=
  value_of (options_of k) its n v \/ (~ In (str n) (map p_name (options_of k)) /\ v = None).

(** The command c is what the line asks for. *)
Definition told (k : client) (its : list item) (c : flowcmd) : Prop :=
  let val := line_value k its in
  c_action c = Some (str (action_of k)) /\
  val "name"%string (c_name c) /\
  val "target"%string (c_target c) /\
  (exists v, val "prio"%string v /\ c_priority c = number v) /\
  (exists v, val "protocols"%string v /\ items (str ", ") v (c_protocols c)) /\
  val "dports"%string (c_dports c) /\
  val "sports"%string (c_sports c) /\
  (exists v, val "dsts"%string v /\ items (str ", ") v (c_dsts c)) /\
  (exists v, val "srcs"%string v /\ items (str ", ") v (c_srcs c)) /\
  (exists v, val "match"%string v /\ items (str ",") v (c_match c)) /\
  (exists v, val "udpencap"%string v /\ c_udpencap c = number v mod 65536).

(** The commands that must have a name *)
Definition names_one (k : client) : Prop := k = FlowSet \/ k = FlowDelete \/ k = TraceSet \/ k = TraceDelete.

(** The line has nothing in it that the protocol cannot carry: no newline,
    and the values the clients do not check have at most 1000 characters. *)
Definition carried (k : client) (its : list item) (tail : option (list chars)) : Prop :=
  Forall plain (line its tail) /\
  forall n v, In n ["name"; "prio"; "udpencap"]%string -> value_of (options_of k) its n (Some v) -> zlen v <= 1000.

(** What trace-flow-set checks: values of at most 1000 characters, no ports
    without protocols *)
Definition trace_checked (its : list item) : Prop :=
  (forall n v, In n ["protocols"; "dsts"; "srcs"; "dports"; "sports"; "match"]%string ->
     value_of traceSetOpts its n (Some v) -> zlen v <= 1000) /\
  (forall n v, In n ["dports"; "sports"]%string -> value_of traceSetOpts its n (Some v) ->
     exists p, value_of traceSetOpts its "protocols" (Some p)).

(** A text in pieces of at most 1024 bytes, as read() gets it; everything is
    taken by write(). *)
Definition arrives (t : chars) (l : list (chars * Z)) : Prop :=
  t = concat (map fst l) /\ Forall (fun r => fst r <> [] /\ zlen (fst r) <= 1024 /\ snd r = zlen (fst r)) l.

(** The items of the match are so short that an error in one of them is told
    in less than 64 characters. *)
Definition short_matches (c : flowcmd) : Prop := forall l s, c_match c = Some l -> In s l -> zlen s <= 34.
