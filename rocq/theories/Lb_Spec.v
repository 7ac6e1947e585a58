(** The decisions of lb and flowlb (C48). *)
From Verif Require Import Base IpKey_Model IpKey_Spec Maglev_Model Flow_Model FlowLb_Model FlowLb_Spec Lb_Model.

(** ** Executions of lb: packets and changes of the shared memory in any order, with any
    interleaving *)
Inductive lexec (g : lconf) : lworld -> list lmove -> lworld -> Prop :=
| lx_nil : forall w, lexec g w [] w
| lx_step : forall w tr w1 m w2, lexec g w tr w1 -> lstep g w1 m = Some (LCont w2) -> lexec g w (tr ++ [m]) w2.
(** [w'] is one of the worlds on the way. *)
Definition lpassed (g : lconf) (w0 : lworld) (tr : list lmove) (w w' : lworld) : Prop :=
  exists tr1 tr2, tr = tr1 ++ tr2 /\ lexec g w0 tr1 w' /\ lexec g w' tr2 w.
Definition passed (h : hconf) (w0 : world) (tr : list (move * list event)) (w w' : world) : Prop :=
  exists tr1 tr2, tr = tr1 ++ tr2 /\ exec h anything w0 tr1 w' /\ exec h anything w' tr2 w.

(** ** Tables *)

(** The mark of an active target in a table in shared memory *)
Definition active (s : state) (r v : Z) : Prop := 0 <= v /\ In v (mactive (t_mem s r)).
(** The shared memory of a target of flowlb *)
Definition target_table (s : state) (r : Z) : Prop := exists o, In o (t_objs s) /\ lb_region o = r.

(** The target a table gives for a hash value: None, or its mark *)
Definition table_mark (t : mag) (hash : Z) : option Z :=
  match znth (mlookup t) (hash mod mM t) with
  | None => None
  | Some i => if i <? 0 then None
              else match znth (mactive t) i with
                   | Some fw => if fw <? 0 then None else Some fw
                   | None => None
                   end
  end.
(** A table that was set up: the lookup table has M entries, each negative or the number of a
    target *)
Definition table_ok (t : mag) : Prop :=
  0 < mM t /\ zlen (mlookup t) = mM t /\ forall i, In i (mlookup t) -> i < zlen (mactive t).
Definition mark_or (none : Z) (m : option Z) : Z := match m with Some v => v | None => none end.

(** ** Packets *)

(** A fragment; a fragment other than the first *)
Definition fragment (enc eth : Z) (data : list Z) : Prop :=
  exists rc k fi, getHashKey (S (length data)) enc eth data = Ok (Some (rc, k, fi)) /\ Z.land rc 3 <> 0.
Definition other_fragment (enc eth : Z) (data : list Z) : Prop :=
  exists rc k fi, getHashKey (S (length data)) enc eth data = Ok (Some (rc, k, fi)) /\ Z.land rc 3 <> 0 /\ Z.land rc 1 = 0.
(** The flows select the object at [a] for a packet, taken as it is or as encapsulated in udp
    (what flowLookup selects is the subject of C35). *)
Definition selects (h : hconf) (s : state) (eth : Z) (data : list Z) (a : Z) : Prop :=
  exists enc rc k fi u u', getHashKey (S (length data)) enc eth data = Ok (Some (rc, k, fi)) /\
    flowLookup (h_ping h) (t_set s) k eth (Some data) u = Ok (a, u') /\ a <> 0.
(** The hash value of a flow: SCTP flows are hashed by the ports alone in mode 1 (C11). *)
Definition flow_hash (mode : Z) (f : flow) : Z :=
  if (fl_proto f =? 132) && (mode =? 1) then djb2 (fl_sport f ++ fl_dport f) else djb2 (flow_key f).
