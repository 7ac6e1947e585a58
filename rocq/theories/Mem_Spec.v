(** What memory flows and requests need (C85). *)
From Coq Require Import String Permutation.
From Verif Require Import Base Cstr_Model Util_Model Flow_Model Flow_Spec Remote_Model Mem_Model.

(** Exactly these blocks are allocated. *)
Definition held (m : mem) (l : list (Z * tag)) : Prop :=
  NoDup (map fst l) /\ forall p t, m_live m p = Some t <-> In (p, t) l.
(** The sets of ports that were freed have left no node. *)
Definition clean (m : mem) : Prop := Forall (fun h => forall q, h q = None) (m_left m).
Definition nothing (m : mem) : Prop := (forall p, m_live m p = None) /\ clean m.

(** What a flow needs *)
Definition some {A} (v : option A) (t : tag) : list tag := match v with None => [] | Some _ => [t] end.
Definition tags (a : fargs) : list tag :=
  [TFlow; TName] ++ some (a_protocols a) TProto ++ some (a_dports a) TPorts ++ some (a_sports a) TPorts
  ++ some (a_dsts a) TCidrs ++ some (a_srcs a) TCidrs
  ++ match a_match a with None => [] | Some [] => [TMatch] | Some _ => [TMatch; TItems] end.

(** The definitions in effect after these calls, from [now] *)
Definition others (name : chars) (now : list fargs) : list fargs := filter (fun b => negb (streq (a_name b) name)) now.
Definition accepted (L : libc) (a : fargs) : bool := match makeFlow L a with Ok (inr _) => true | _ => false end.
Fixpoint effect (L : libc) (now : list fargs) (ops : list mop) : list fargs :=
  match ops with
  | [] => now
  | MDefine a :: r => effect L (if accepted L a then a :: others (a_name a) now else now) r
  | MDelete n :: r => effect L (others n now) r
  | MLook :: r => effect L now r
  end.

(** Texts that fit their buffers (the others are UB, C36); qsort permutes. *)
Definition safe_call (o : mop) : Prop := match o with MDefine a => safe_op (Define a) | _ => True end.
Definition permutes {A} (sort : list A -> list A) : Prop := forall l, Permutation l (sort l).

(** The set with its flows: the array has a place for the NULL behind them. *)
Definition set_tags (t : list tag) (defs : list fargs) : Prop :=
  exists n, zlen defs < n /\ Permutation t (TSet :: TArr n :: flat_map tags defs).

(** ** The server *)

(** What a connection asks for, if its request can be read *)
Definition request (k : conn) : option flowcmd :=
  if n_accept k && n_in k then
    match readFlowCmd (n_text k) with
    | Ok (Some (c, _)) => match c_action c with None => None | Some _ => Some c end
    | _ => None
    end
  else None.
Definition asked (calls : flowcmd -> list mop) (k : conn) : list mop :=
  match request k with None => [] | Some c => calls c end.
(** The descriptor of the answer is duplicated, but gets no stream. *)
Definition loses (k : conn) : bool :=
  match request k with
  | Some c => match c_action c with Some a => writes a && n_dup k && negb (n_out k) | None => false end
  | None => false
  end.
Fixpoint many {A} (f : A -> bool) (l : list A) : Z := match l with [] => 0 | x :: r => (if f x then 1 else 0) + many f r end.
Definition is_conn (t : tag) : bool := match t with TConn => true | _ => false end.
Definition is_request (t : tag) : bool := match t with TText | TArgv => true | _ => false end.
Definition is_stream (t : tag) : bool := match t with TFile => true | _ => false end.
