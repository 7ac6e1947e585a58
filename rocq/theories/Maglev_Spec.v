(** Specification vocabulary for the Maglev tables (C02-C09, C55-C58), stated on
    what a user can observe: the shared memory contents. *)
From Verif Require Import Base Lists Maglev_Model Config_Model Config_Spec.

(** Parameters as the init command gets them: two unsigned numbers, and the values
    that rand() returns. *)
Definition init_args (m n : Z) (rand : nat -> Z) : Prop :=
  0 <= m < 2 ^ 32 /\ 0 <= n < 2 ^ 32 /\ forall k, 0 <= rand k < 2 ^ 31.

(** [reached m n rand cs s]: s is the shared memory after init and the commands cs. *)
Definition reached (m n : Z) (rand : nat -> Z) (cs : list cmd) (s : mag) : Prop :=
  exists s0, cmdInit m n rand = Ok s0 /\ run_hist s0 cs = Ok s.

(** States reachable by any sequence of commands each of which may be killed after
    any of its stores. *)
Inductive creach : mag -> mag -> Prop :=
| cr_refl : forall m, creach m m
| cr_step : forall m1 m2 c m' tr s, creach m1 m2 ->
    run_cmd m2 c = Ok (m', tr) -> In s (states m2 tr) -> creach m1 s.

(** Target index i exists and is active (has a fwmark). *)
Definition is_active (m : mag) (i : Z) : Prop := exists fw, znth (mactive m) i = Some fw /\ 0 <= fw.

(** The number of active targets. *)
Definition n_active (s : mag) : Z := countb (fun fw => 0 <=? fw) (mactive s).

(** The number of lookup slots that target i owns. *)
Definition owned (l : list Z) (i : Z) : Z := countb (Z.eqb i) l.

(** The list 0, 1, ..., M-1. *)
Definition slots (M : Z) : list Z := map Z.of_nat (seq 0 (Z.to_nat M)).

(** Byte ranges (start, length) do not overlap. *)
Definition disjoint (r1 r2 : Z * Z) : Prop :=
  fst r1 + snd r1 <= fst r2 \/ fst r2 + snd r2 <= fst r1.

(** Commands on sets of fwmarks as commands of the program. *)
Definition to_cmd (c : s_cmd) : cmd :=
  match c with SAct fws => Activate fws | SDeact fws => Deactivate fws end.
