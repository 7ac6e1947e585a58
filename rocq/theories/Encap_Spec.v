(** Packets with the same contents. *)
From Verif Require Import Base.

(** The bytes of d1 from o1 on are those of d2 from o2 on. *)
Definition same_rest (d1 : list Z) (o1 : Z) (d2 : list Z) (o2 : Z) : Prop :=
  0 <= o1 <= zlen d1 /\ 0 <= o2 <= zlen d2 /\ skipn (Z.to_nat o1) d1 = skipn (Z.to_nat o2) d2.
