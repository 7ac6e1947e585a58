(** What the trace of a packet of flowlb should tell (C88). *)
From Coq Require Import String.
From Verif Require Import Base Cstr_Model Rangeset_Spec FlowLb_Model Shown_Model.

(** A number as %d writes it *)
Definition shows (s : chars) (v : Z) : Prop := is_dec s v \/ exists d, s = 45 :: d /\ is_dec d (- v) /\ v < 0.
Definition is_mark (v : Z) : Prop := -2147483648 <= v <= 2147483647.
Definition line (t : chars) : chars := t ++ [10].

(** The names of protocols; others are numbers. *)
Definition known (p : Z) (s : chars) : Prop :=
  p = 6 /\ s = str "tcp" \/ p = 17 /\ s = str "udp" \/ p = 132 /\ s = str "sctp" \/ p = 1 /\ s = str "icmp" \/ p = 58 /\ s = str "icmp6".
Definition called (p : Z) (s : chars) : Prop := known p s \/ (forall s', ~ known p s') /\ is_dec s p.

(** The line that shows a packet: protocol, length, addresses (written by [N]) and ports *)
Definition packet_line (N : list Z -> chars) (p len : Z) (src dst : list Z) (sp dp : Z) (l : chars) : Prop :=
  exists tp tl a b, called p tp /\ is_dec tl len /\ is_dec a sp /\ is_dec b dp /\
    l = line (str "proto=" ++ tp ++ str ", len=" ++ tl ++ str ", " ++ N src ++ str " " ++ a ++ str " -> " ++ N dst ++ str " " ++ b).

(** The lines that tell what mark a packet gets, and for which target *)
Inductive tells : chars -> option chars -> Z -> Prop :=
| t_none s v : shows s v -> tells (line (str "NO target, fwmark=" ++ s)) None v
| t_servers t s v : shows s v -> tells (line (str "NO servers, target=" ++ t ++ str ", fwmark=" ++ s)) (Some t) v
| t_target t s v : shows s v -> tells (line (str "target=" ++ t ++ str ", fwmark=" ++ s)) (Some t) v.
Definition failed : chars := line (str "FAILED: Handle first fragment").
(** The lines for fragments other than the first *)
Inductive tells_fragment : chars -> Z -> Prop :=
| f_tier s v : shows s v -> tells_fragment (line (str "Fragment to LB tier. fw=" ++ s)) v
| f_local s v : shows s v -> tells_fragment (line (str "Handle non-first frag locally fwmark=" ++ s)) v
| f_stored : tells_fragment (line (str "Fragment stored")) (-1)
| f_dropped : tells_fragment (line (str "Fragment dropped")) (-1).
(** The line for a packet that is sent to a target *)
Definition sent_line (v : Z) (l : chars) : Prop := exists p len s, is_dec s v /\ l = line (str "Packet; proto=" ++ p ++ str ", len=" ++ len ++ str ", fwmark=" ++ s).
(** The mark is told in one of the lines, with the target of the object that was used. *)
Definition mark_told (s : state) (ev : list event) (l : list chars) (v : Z) : Prop :=
  exists x t, In x l /\ tells x t v /\ (forall n, t = Some n -> exists a o, In (Gave a) ev /\ deref s a = Some o /\ lb_target o = n).

(** ** Protocol names with threads: executions of steps with what they show *)
Inductive pexec : list (pmove * option chars) -> pstate -> Prop :=
| px_start : pexec [] pstart
| px_step tr s m o s' : pexec tr s -> pstep s m = Some (s', o) -> pexec (tr ++ [(m, o)]) s'.
(** [t] asked for the name of [p], and has not traced since; [later] is what happened after that. *)
Definition asked_name (tr : list (pmove * option chars)) (t : nat) (p : Z) (later : list (pmove * option chars)) : Prop :=
  (exists before, tr = before ++ (PName t p, None) :: later) /\ ~ exists o, In (PTrace t, o) later.

(** ** Fragments handed back *)
Definition injected (n : chars) : chars := line (str "Frag injected, len=" ++ n ++ str ", rc=" ++ n).
(** With a tun device every fragment written to it has a line that says so; without one nothing is
    written and no line says so. *)
Definition injections_told (tun : bool) (before after : list (list Z)) (l : list chars) : Prop :=
  if tun then exists ws, after = before ++ ws /\ forall d, In d ws -> zlen d <= 4294967295 -> exists n, is_dec n (zlen d) /\ In (injected n) l
  else after = before /\ forall x y, In x l -> x <> str "Frag injected" ++ y.
