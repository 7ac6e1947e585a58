(** What a look-up returns is what it found (C92). *)
From Verif Require Import Base Conntrack_Model Conntrack_Spec Frag_Model Frag_Spec Late_Model.

Inductive lexec (g : conf) : lworld -> list obs -> lworld -> Prop :=
| le_nil : forall w, lexec g w [] w
| le_step : forall w tr w1 l ob w2, lexec g w tr w1 -> lwstep g w1 l = Some (Ok (w2, ob)) -> lexec g w (tr ++ ob) w2.
Definition lfails (g : conf) (w : lworld) (l : llabel) : Prop := exists r, lwstep g w l = Some r /\ forall x, r <> Ok x.

(** The step is a second read that does not get what was found. *)
Definition disturbed (w : lworld) (l : llabel) : Prop :=
  exists j a seen c again o i x b, l = LLThread j a seen /\ znth (l_pcs w) j = Some (Late c again o i x) /\
    znth (t_buckets (s_ct (l_sys w))) i = Some b /\ cell_data b x seen <> o.
Inductive calm_exec (g : conf) : lworld -> list obs -> lworld -> Prop :=
| ce_nil : forall w, calm_exec g w [] w
| ce_step : forall w tr w1 l ob w2, calm_exec g w tr w1 -> lwstep g w1 l = Some (Ok (w2, ob)) -> ~ disturbed w1 l ->
    calm_exec g w (tr ++ ob) w2.
(** The same state, with the look-up done *)
Definition done_pc (p : lpc) : pc := match p with At p => p | Late c _ o _ _ => PBody c o end.
Definition done (w : lworld) : world := mkWorld (l_sys w) (map done_pc (l_pcs w)).
(** Whenever a thread reads a second time, the entry that it found is still in the table. *)
Definition entry_there (w : lworld) (l : llabel) : Prop :=
  forall j a seen c again o i x, l = LLThread j a seen -> znth (l_pcs w) j = Some (Late c again o i x) -> In o (stored_data (s_ct (l_sys w))).
Inductive kept_exec (g : conf) : lworld -> list obs -> lworld -> Prop :=
| ke_nil : forall w, kept_exec g w [] w
| ke_step : forall w tr w1 l ob w2, kept_exec g w tr w1 -> lwstep g w1 l = Some (Ok (w2, ob)) -> entry_there w1 l ->
    kept_exec g w (tr ++ ob) w2.

(** Executions in which nobody reads the statistics.  With one thread: one queue *)
Inductive packets_exec (g : conf) : lworld -> list obs -> lworld -> Prop :=
| qe_nil : forall w, packets_exec g w [] w
| qe_step : forall w tr w1 j a seen ob w2, packets_exec g w tr w1 -> lwstep g w1 (LLThread j a seen) = Some (Ok (w2, ob)) -> packets_exec g w (tr ++ ob) w2.

(** Executions in which calls do not overlap: when a thread takes a step no other one is in a call,
    and the statistics are read when none is. *)
Definition alone (w : lworld) (l : llabel) : Prop :=
  match l with
  | LLThread j _ _ => forall i p, znth (l_pcs w) i = Some p -> i <> j -> p = At Idle
  | LLStats _ _ => forall i p, znth (l_pcs w) i = Some p -> p = At Idle
  end.
Inductive calls_exec (g : conf) : lworld -> list obs -> lworld -> Prop :=
| ca_nil : forall w, calls_exec g w [] w
| ca_step : forall w tr w1 l ob w2, calls_exec g w tr w1 -> lwstep g w1 l = Some (Ok (w2, ob)) -> alone w1 l -> calls_exec g w (tr ++ ob) w2.
