(** The flows in force are those requested (C63), and what a request must be
    for the flow thread to survive it (C64). *)
From Coq Require Import String.
From Verif Require Import Base Cstr_Model Util_Spec Rangeset_Spec Flow_Model Flow_Spec Remote_Model FlowLb_Model FlowLb_Spec.

(** ** C63 *)

(** [set] is what a history of definitions and deletions leaves, and [now]
    the definitions in force. *)
Definition stands (L : libc) (set : list frec) (now : chars -> option fargs) : Prop :=
  exists ops ans, run L [] ops = Ok (set, ans) /\ now = current ops ans.

(** The definition of flow n says what the request says. *)
Definition as_requested (c : flowcmd) (n : chars) (a : fargs) : Prop :=
  a_name a = n /\ a_priority a = c_priority c /\ a_udpencap a = c_udpencap c /\
  a_protocols a = c_protocols c /\ a_match a = c_match c /\
  a_dports a = c_dports c /\ a_sports a = c_sports c /\ a_dsts a = c_dsts c /\ a_srcs a = c_srcs c.

(** The companion of flow n covers the encapsulating udp packets: those to the
    udp port of the request, between its addresses. *)
Definition as_companion (c : flowcmd) (n : chars) (b : fargs) : Prop :=
  a_name b = str "#" ++ n /\ a_priority b = c_priority c /\ a_udpencap b = c_udpencap c /\
  a_protocols b = Some [str "udp"] /\ a_match b = None /\
  (exists d, a_dports b = Some d /\ is_dec d (c_udpencap c)) /\ a_sports b = None /\
  a_dsts b = c_dsts c /\ a_srcs b = c_srcs c /\ a_ref b = 0.

(** The object at an address, released or not, is for the target t. *)
Definition made_for (s : state) (a : Z) (t : chars) : Prop :=
  exists o, znth (t_objs s) (a - 1) = Some o /\ lb_target o = t.

(** Definitions in force before and after a request, by what it is and how it
    was answered *)
Definition set_accepted (c : flowcmd) (s : state) (now now' : chars -> option fargs) : Prop :=
  exists n t a, c_name c = Some n /\ c_target c = Some t /\
    now' n = Some a /\ as_requested c n a /\ a_ref a <> 0 /\ made_for s (a_ref a) t /\
    (c_udpencap c = 0 -> forall m, m <> n -> now' m = now m) /\
    (c_udpencap c <> 0 ->
       (exists b, now' (str "#" ++ n) = Some b /\ as_companion c n b) /\
       forall m, m <> n -> m <> str "#" ++ n -> now' m = now m).
(** ... a request refused for the flow it defines may leave a companion. *)
Definition set_refused (c : flowcmd) (now now' : chars -> option fargs) : Prop :=
  (forall m, now' m = now m) \/
  exists n b, c_name c = Some n /\ c_udpencap c <> 0 /\ as_companion c n b /\
    now' (str "#" ++ n) = Some b /\ forall m, m <> str "#" ++ n -> now' m = now m.
Definition deleted (c : flowcmd) (now now' : chars -> option fargs) : Prop :=
  exists n, c_name c = Some n /\ now' n = None /\
    match now n with
    | Some a => if 0 <? a_udpencap a
                then now' (str "#" ++ n) = None /\ forall m, m <> n -> m <> str "#" ++ n -> now' m = now m
                else forall m, m <> n -> now' m = now m
    | None => forall m, m <> n -> now' m = now m
    end.
Definition answered_request (c : flowcmd) (m : string) (s : state) (now now' : chars -> option fargs) : Prop :=
  (c_action c = Some (str "set") -> m = "OK"%string -> set_accepted c s now now') /\
  (c_action c = Some (str "set") -> m <> "OK"%string -> set_refused c now now') /\
  (c_action c = Some (str "delete") -> m = "OK"%string -> deleted c now now') /\
  (c_action c = Some (str "delete") -> m <> "OK"%string -> now' = now) /\
  (c_action c <> Some (str "set") -> c_action c <> Some (str "delete") -> now' = now).

(** No request is taken in tr. *)
Definition no_command (tr : list (move * list event)) : Prop :=
  forall c ev, ~ In (Command c, ev) tr.

(** ** C64 *)

(** The requests for flows name a target, and their priorities are so close
    that they can be compared (see C37). *)
Definition close_priority (lo : Z) (p : Z) : Prop := lo <= p <= lo + 2147483647.
Definition survivable (lo : Z) (c : flowcmd) : Prop :=
  c_action c = Some (str "set") -> c_target c <> None /\ close_priority lo (c_priority c).
Definition survivable_move (h : hconf) (lo : Z) (w : world) (m : move) : Prop :=
  orderly h w m /\ forall c, m = Command c -> survivable lo c.

(** Steps of the flow thread *)
Definition flow_steps (tr : list (move * list event)) : Z :=
  zlen (filter (fun x => match fst x with FlowStep => true | _ => false end) tr).
