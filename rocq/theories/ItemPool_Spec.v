(** Specification of item pools (C26).  The clients hold lists of items: a list is
    born when an item is allocated, lists are linked, and a list is given back as a
    whole. *)
From Coq Require Import Permutation.
From Verif Require Import Base ItemPool_Model.

(** The clients' use of the interface: what they may call while holding the lists
    [held], and what they hold afterwards, given the call's result. *)
Inductive client (held : list (list Z)) : pop -> option Z -> list (list Z) -> Prop :=
| cl_alloc_ok : forall i, client held PAlloc (Some i) ([i] :: held)
| cl_alloc_no : client held PAlloc None held
| cl_free_null : client held (PFree None) None held
| cl_free : forall a h l b, held = a ++ (h :: l) :: b -> client held (PFree (Some h)) None (a ++ b)
| cl_link : forall i h l rest, Permutation held ([i] :: (h :: l) :: rest) ->
    client held (PSetNext i (Some h)) None ((i :: h :: l) :: rest)
| cl_next_null : forall i, client held (PAllocNext None) (Some i) ([i] :: held)
| cl_next_null_no : client held (PAllocNext None) None held
| cl_next_ok : forall i a h l b, held = a ++ (h :: l) :: b ->
    client held (PAllocNext (Some h)) (Some i) ((i :: h :: l) :: a ++ b)
| cl_next_no : forall a h l b, held = a ++ (h :: l) :: b -> client held (PAllocNext (Some h)) None (a ++ b)
| cl_clear : client held PClear None held.

(** A call the clients may make. *)
Definition may (held : list (list Z)) (o : pop) : Prop :=
  match o with
  | PAlloc | PFree None | PAllocNext None | PClear => True
  | PFree (Some h) | PAllocNext (Some h) => exists l, In (h :: l) held
  | PSetNext i (Some h) => exists l rest, Permutation held ([i] :: (h :: l) :: rest)
  | PSetNext i None => False
  end.

(** Histories: the pool reached from a fresh one of [n] items, what the clients hold,
    and the calls made with their results (latest first). *)
Inductive reach (n : Z) : pool -> list (list Z) -> list (pop * option Z) -> Prop :=
| re_new : forall sz p, itemPoolCreate n sz true = Ok (Some p) -> reach n p [] []
| re_step : forall p held h o r p' held', reach n p held h -> pstep p o = Ok (p', r) ->
    client held o r held' -> reach n p' held' ((o, r) :: h).

Definition is_alloc (o : pop) : bool := match o with PAlloc | PAllocNext _ => true | _ => false end.
(** Calls since the statistics were cleared. *)
Fixpoint since_clear (h : list (pop * option Z)) : list (pop * option Z) :=
  match h with
  | [] => []
  | (PClear, _) :: _ => []
  | x :: r => x :: since_clear r
  end.
Definition allocs (h : list (pop * option Z)) : Z := zlen (filter (fun x => is_alloc (fst x)) h).
Definition rejects (h : list (pop * option Z)) : Z :=
  zlen (filter (fun x => is_alloc (fst x) && match snd x with None => true | Some _ => false end) h).

(** The number of items the clients hold. *)
Definition n_held (held : list (list Z)) : Z := zlen (concat held).
