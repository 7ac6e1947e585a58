(** What the shared memory of a table should contain (C71, C72). *)
From Coq Require Import String.
From Verif Require Import Base Cstr_Model Rangeset_Model Rangeset_Spec Maglev_Model Config_Model Shm_Model.

Definition int32 (x : Z) : Prop := - 2147483648 <= x <= 2147483647.
Definition bytes_of (ws : list Z) : list Z := flat_map le4 ws.

(** The file f has the own fwmark and the table s in it: own fwmark, M, N, some
    number, lookup table, preference lists, active fwmarks, and possibly more. *)
Definition holds (f : list Z) (own : Z) (s : mag) : Prop :=
  exists len rest, f = bytes_of (own :: mM s :: mN s :: len :: mlookup s ++ concat (mperm s) ++ mactive s ++ rest) /\
    zlen (mlookup s) = mM s /\ zlen (mperm s) = mN s /\ Forall (fun r => zlen r = mM s) (mperm s) /\ zlen (mactive s) = mN s.

(** The numbers have the width of the C types, and the table is small enough for the
    32-bit offsets. *)
Definition sized (own : Z) (s : mag) : Prop :=
  int32 own /\ Forall int32 (mlookup s) /\ Forall int32 (mactive s) /\ Forall (fun r => Forall is_u32 r) (mperm s) /\
  0 <= mM s /\ 0 <= mN s /\ 16 + 4 * mM s + 4 * (mM s * mN s) + 4 * mN s < 2 ^ 32.

(** The marks given to a command are what atoi can return. *)
Definition cmd_ints (c : cmd) : Prop :=
  match c with
  | Activate fws | Deactivate fws => Forall int32 fws
  | ActivateIdx i fw => int32 i /\ int32 fw
  | DeactivateIdx i => int32 i
  end.

(** The results of write(2) get [n] bytes written, without error. *)
Fixpoint writes (rs : list wres) (n : Z) : Prop :=
  n <= 0 \/ match rs with
            | Wrote k :: rs' => 0 <= k /\ writes rs' (n - k)
            | Again :: rs' => writes rs' n
            | _ => False
            end.

(** The text of the active targets: fwmark and index, in the order of the indices *)
Fixpoint active_text (l : list (Z * Z)) : chars :=
  match l with
  | [] => []
  | (fw, i) :: r => str " " ++ dec fw ++ str "(" ++ dec i ++ str ")" ++ active_text r
  end.
Fixpoint actives (a : list Z) (i : Z) : list (Z * Z) :=
  match a with
  | [] => []
  | fw :: r => (if 0 <=? fw then [(fw, i)] else []) ++ actives r (i + 1)
  end.

(** The contents of the file that any commands can leave, each of which may be killed
    after any of its stores. *)
Inductive fcreach : list Z -> list Z -> Prop :=
| fc_refl : forall f, fcreach f f
| fc_step : forall f1 f2 c f' tr g, fcreach f1 f2 -> cmd_ints c ->
    wrun f2 c = Ok (f', tr) -> In (Ok g) (wstates f2 tr) -> fcreach f1 g.

(** The size of the file of a table *)
Definition file_size (s : mag) : Z := 28 + 4 * (mM s * mN s) + 4 * (mM s + mN s).

(** What show should print *)
Definition int_text (x : Z) : chars := if x <? 0 then 45 :: dec (- x) else dec x.
Definition show_text (name : chars) (own M N : Z) (lookup : list Z) (act : list (Z * Z)) : chars :=
  str "Shm: " ++ name ++ [10] ++ str "  Fw: own=" ++ int_text own ++ [10] ++
  str "  Maglev: M=" ++ dec M ++ str ", N=" ++ dec N ++ [10] ++
  str "   Lookup:" ++ flat_map (fun x => str " " ++ int_text x) lookup ++ str "..." ++ [10] ++
  str "   Active:" ++ active_text act ++ [10].
