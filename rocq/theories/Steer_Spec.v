(** All fragments of a datagram get the same decision (C13): lb and flowlb. *)
From Verif Require Import Base IpKey_Model IpKey_Spec Maglev_Model FlowLb_Model FlowLb_Spec FlowLb4_Proofs Lb_Model Lb_Spec.
From Verif Require Frag_Model Frag_Spec.

(** A datagram: the addresses and the identification, padded to 8 bytes *)
Record dgram := mkD { d_src : list Z; d_dst : list Z; d_id : list Z }.
(** The packet is a fragment of it, the first or another; see C14 for the packet formats. *)
Definition frag_of (enc eth : Z) (data : list Z) (first : bool) (d : dgram) : Prop :=
  exists rc k fi, getHashKey (S (length data)) enc eth data = Ok (Some (rc, k, fi)) /\ k_src k = d_src d /\ k_dst k = d_dst d /\
    if first then Z.land rc 1 <> 0 /\ fi = Some (d_id d) else Z.land rc 3 <> 0 /\ Z.land rc 1 = 0 /\ k_id k = d_id d.

(** A packet: clock, whether the reassembler has seen all of the datagram, type, contents *)
Notation arrival := (Z * bool * Z * list Z)%type.

(** Packets handled one after the other.  Between them flows, targets and shared memory may
    change in any way; [env] is what is assumed of them. *)
Inductive handled (pp : Z -> bool -> Z -> list Z -> prog) (env : state -> Prop) : Frag_Model.sys -> list arrival -> list Z -> Prop :=
| hd_nil : forall ft, handled pp env ft [] []
| hd_cons : forall s now done eth data v s' ev r vs, env s -> runp (pp now done eth data) s = Some (Verdict v, s', ev) ->
    handled pp env (t_ft s') r vs -> handled pp env (t_ft s) ((now, done, eth, data) :: r) (v :: vs).
(** The table of the LB tier does not change. *)
Definition tier_table (h : hconf) (t : mag) (s : state) : Prop := forall r own, h_tier h = Some (r, own) -> t_mem s r = t.

(** The clock does not run backwards. *)
Fixpoint clock (t0 : Z) (l : list arrival) : Prop :=
  match l with [] => True | (now, _, _, _) :: r => t0 <= now < two64 /\ clock now r end.

(** The decisions [vs] about packets [l] after the first fragment of [d] was sent to [v] at time
    [t0]: another fragment of [d], not later than [ttl] after the last one, is sent to [v], until
    the reassembler has seen all of the datagram; a first fragment is not sent elsewhere. [none]
    are the marks that are not targets. *)
Fixpoint follow (enc ttl : Z) (d : dgram) (v : Z) (none : list Z) (t0 : Z) (l : list arrival) (vs : list Z) : Prop :=
  match l, vs with
  | (now, done, eth, data) :: r, x :: vs =>
      now - t0 <= ttl ->
      (frag_of enc eth data true d -> x = v \/ In x none) /\
      (frag_of enc eth data false d -> x = v /\ (done = false -> follow enc ttl d v none now r vs)) /\
      (~ frag_of enc eth data false d -> follow enc ttl d v none t0 r vs)
  | _, _ => True
  end.

(** ** Any interleaving *)

(** The packets of an execution; packet number i is the i-th that arrived. *)
Definition arrivals (tr : list (move * list event)) : list (Z * list Z) :=
  flat_map (fun x => match fst x with Arrive _ _ eth data => [(eth, data)] | _ => [] end) tr.
Definition larrivals (tr : list lmove) : list (Z * list Z) :=
  flat_map (fun m => match m with LArrive _ _ eth data => [(eth, data)] | _ => [] end) tr.
