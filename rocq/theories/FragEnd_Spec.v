(** Specification of the end of a fragment table (C87). *)
From Verif Require Import Base Conntrack_Model Conntrack_Spec Frag_Model Frag_Spec.

(** Clock readings of calls are at most [T]. *)
Definition timed (T : Z) (l : label) : Prop := match l with LThread _ a => 0 <= c_now (a_call a) <= T | LStats _ _ => True end.
(** Any interleaving of any number of threads. *)
Inductive exec_by (T : Z) (g : conf) : world -> list obs -> world -> Prop :=
| by_nil w : exec_by T g w [] w
| by_step w tr w1 l ob w2 : exec_by T g w tr w1 -> timed T l -> wstep g w1 l = Some (Ok (w2, ob)) -> exec_by T g w (tr ++ ob) w2.

(** Nobody is in a call. *)
Definition quiet (w : world) : Prop := Forall (fun p => p = Idle) (w_pcs w).
(** Nothing is in use any more. *)
Definition all_back (g : conf) (s : sys) : Prop :=
  s_objs s = [] /\ stored_data (s_ct s) = [] /\ stored_buckets (s_ct s) = [] /\
  s_fdfree s = g_hsize g + g_maxBuckets g /\ s_bkfree s = g_maxBuckets g /\ s_frfree s = g_maxFragments g.
