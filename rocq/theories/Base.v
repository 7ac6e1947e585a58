(** Common definitions: outcomes of C code, fixed width arithmetic, arrays. *)
From Coq Require Export ZArith List Bool Lia ZifyBool.
Export ListNotations.
Open Scope Z_scope.

(** Outcome of running a piece of C code.
    [Die]: the process exits through die()/exit() (src/lib/die.c:11-17).
    [UB] : undefined behaviour - access outside an object, use of freed or
           uninitialised memory, signed overflow, NULL dereference.
    [Fuel]: the (Gallina) step budget of a C loop was exhausted. *)
Inductive outcome (A : Type) : Type :=
| Ok (a : A)
| Die
| UB
| Fuel.
Arguments Ok {A} a.
Arguments Die {A}.
Arguments UB {A}.
Arguments Fuel {A}.

Definition obind {A B} (x : outcome A) (f : A -> outcome B) : outcome B :=
  match x with
  | Ok a => f a
  | Die => Die
  | UB => UB
  | Fuel => Fuel
  end.

Definition omap {A B} (f : A -> B) (x : outcome A) : outcome B :=
  obind x (fun a => Ok (f a)).

Notation "'do' x '<-' e ; f" := (obind e (fun x => f))
  (at level 200, x pattern, e at level 100, f at level 200, right associativity).

(** Fixed width unsigned arithmetic. *)
Definition two32 : Z := 4294967296.
Definition two64 : Z := 18446744073709551616.
Definition u32 (x : Z) : Z := x mod two32.
Definition u64 (x : Z) : Z := x mod two64.
Definition UINT_MAX : Z := 4294967295.
Definition UINT64_MAX : Z := 18446744073709551615.

(** Two's complement reading of a 32-bit pattern. *)
Definition s32 (x : Z) : Z :=
  let y := u32 x in if y <? 2147483648 then y else y - two32.

(** C arrays are lists; the index is a C integer. *)
Definition znth {A} (l : list A) (i : Z) : option A :=
  if i <? 0 then None else nth_error l (Z.to_nat i).

Fixpoint upd {A} (l : list A) (i : nat) (v : A) : list A :=
  match l, i with
  | [], _ => []
  | _ :: l', O => v :: l'
  | x :: l', S i' => x :: upd l' i' v
  end.

Definition zupd {A} (l : list A) (i : Z) (v : A) : list A :=
  if i <? 0 then l else upd l (Z.to_nat i) v.

(** Array access with out-of-bounds = UB. *)
Definition aget {A} (l : list A) (i : Z) : outcome A :=
  match znth l i with Some v => Ok v | None => UB end.
Definition aset {A} (l : list A) (i : Z) (v : A) : outcome (list A) :=
  match znth l i with Some _ => Ok (zupd l i v) | None => UB end.

Definition zlen {A} (l : list A) : Z := Z.of_nat (length l).
