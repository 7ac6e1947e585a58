(** What a range set should be, said without trees. *)
From Coq Require Import Permutation Sorted.
From Verif Require Import Base Cstr_Model Rangeset_Model.

Definition range := (Z * Z)%type.

(** v lies in one of the ranges *)
Definition covered (l : list range) (v : Z) : Prop :=
  exists f e, In (f, e) l /\ f <= v <= e.

(** The ranges a set with the given limits takes. *)
Definition acceptable (lo hi : Z) (r : range) : Prop :=
  fst r <= snd r /\ lo <= fst r /\ snd r <= hi.

(** 32-bit numbers *)
Definition is_u32 (v : Z) : Prop := 0 <= v <= UINT_MAX.
Definition range_u32 (r : range) : Prop := is_u32 (fst r) /\ is_u32 (snd r).

(** Non-empty ranges in increasing order, with a gap between neighbours. *)
Fixpoint canonical (l : list range) : Prop :=
  match l with
  | [] => True
  | (f, e) :: l' =>
      f <= e /\
      match l' with [] => True | (f', _) :: _ => e + 1 < f' end /\
      canonical l'
  end.

(** What C requires of qsort: a permutation, ordered by the keys. *)
Definition qsort_ok (sort : sorter) : Prop :=
  forall key l, Permutation l (sort key l) /\
                StronglySorted (fun a b => key a <= key b) (sort key l).

(** New sets with their limits. *)
Definition created (t : rset) (lo hi : Z) : Prop :=
  (t = rangeSetCreate /\ lo = 0 /\ hi = UINT_MAX) \/
  (rangeSetCreateLimited lo hi = Some t /\ is_u32 lo /\ is_u32 hi).

(** A caller that adds a list of ranges and goes on when one is refused. *)
Fixpoint add_all (t : rset) (l : list range) : rset :=
  match l with
  | [] => t
  | (f, e) :: l' =>
      match rangeSetAdd t f e with
      | Some t' => add_all t' l'
      | None => add_all t l'
      end
  end.

(** The ranges stored in a set, in order. *)
Fixpoint inorder (fuel : nat) (h : heap) (n : Z) : outcome (list range) :=
  if n =? 0 then Ok []
  else match fuel with
  | O => Fuel
  | S fuel' =>
      do x <- load h n;
      do a <- inorder fuel' h (left x);
      do b <- inorder fuel' h (right x);
      Ok (a ++ (first x, last x) :: b)
  end.

(** s is the decimal notation of v. *)
Definition is_dec (s : chars) (v : Z) : Prop :=
  s <> [] /\ Forall (fun c => 48 <= c <= 57) s /\
  fold_left (fun a c => a * 10 + (c - 48)) s 0 = v /\
  (hd 0 s = 48 -> s = [48]).

(** "f," or "f-e," *)
Definition is_range_text (s : chars) (r : range) : Prop :=
  exists a, is_dec a (fst r) /\
    ((fst r = snd r /\ s = a ++ [44]) \/
     (fst r <> snd r /\ exists b, is_dec b (snd r) /\ s = a ++ [45] ++ b ++ [44])).

(** s lists the ranges l *)
Definition is_list_text (s : chars) (l : list range) : Prop :=
  exists parts, s = concat parts /\ Forall2 is_range_text parts l.

(** Use of a set: adding, updating, asking. *)
Inductive rop :=
| RAdd (f e : Z)
| RUpdate.
