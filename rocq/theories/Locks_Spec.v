(** Threads do not wait for each other for ever (C91). *)
From Verif Require Import Base Locks_Model.

(** A thread: what is left of its call, and the locks it holds (true: exclusively) *)
Record thread := mkT { th_ops : list lop; th_held : list (lock * bool) }.

Definition pool_eqb (p q : pool) : bool :=
  match p, q with FragDatas, FragDatas | Fragments, Fragments | Buckets, Buckets | Holes, Holes => true | _, _ => false end.
Definition lock_eqb (k l : lock) : bool :=
  match k, l with
  | Entry f, Entry g => f =? g
  | Bucket b, Bucket c => b =? c
  | Pool p, Pool q => pool_eqb p q
  | Flows t, Flows u => Bool.eqb t u
  | LbList, LbList | Trace, Trace => true
  | _, _ => false
  end.
Definition holds (t : thread) (l : lock) : bool := existsb (fun h => lock_eqb (fst h) l) (th_held t).
Definition holds_alone (t : thread) (l : lock) : bool := existsb (fun h => lock_eqb (fst h) l && snd h) (th_held t).
(** The thread waits for the lock or is about to take it exclusively. *)
Definition wants (t : thread) (l : lock) : bool := match th_ops t with Acq k :: _ => lock_eqb k l | _ => false end.
Fixpoint drop (l : lock) (held : list (lock * bool)) : list (lock * bool) :=
  match held with [] => [] | h :: r => if lock_eqb (fst h) l then r else h :: drop l r end.

(** [ready c] tells whether client [c] reads (or leaves); [first] whether those who wait to take
    a lock exclusively go before those who want to share it, which pthreads leave open. *)
Definition free (first : bool) (ready : client -> bool) (ts : list thread) (o : lop) : bool :=
  match o with
  | Acq l => negb (existsb (fun t => holds t l) ts)
  | Shared l => negb (existsb (fun t => holds_alone t l || (first && wants t l)) ts)
  | Rel _ => true
  | Client c => ready c
  end.
Definition after (t : thread) (o : lop) (r : list lop) : thread :=
  match o with
  | Acq l => mkT r ((l, true) :: th_held t)
  | Shared l => mkT r ((l, false) :: th_held t)
  | Rel l => mkT r (drop l (th_held t))
  | Client _ => mkT r (th_held t)
  end.
(** Thread [i] makes a step. *)
Definition tstep (first : bool) (ready : client -> bool) (ts : list thread) (i : Z) : option (list thread) :=
  match znth ts i with
  | Some t =>
      match th_ops t with
      | o :: r => if free first ready ts o then Some (zupd ts i (after t o r)) else None
      | [] => None
      end
  | None => None
  end.
(** Executions of [n] threads; thread [i] may make the calls [may i].  The clients change. *)
Inductive texec (first : bool) (may : Z -> call -> Prop) (n : nat) : list thread -> Prop :=
| tx_start : texec first may n (repeat (mkT [] []) n)
| tx_call : forall ts i t c ops, texec first may n ts -> znth ts i = Some t -> th_ops t = [] -> may i c -> runs (body c) ops ->
    texec first may n (zupd ts i (mkT ops (th_held t)))
| tx_step : forall ready ts i ts', texec first may n ts -> tstep first ready ts i = Some ts' -> texec first may n ts'.
(** Steps of the calls that are under way *)
Inductive steps (first : bool) (ready : client -> bool) (ts : list thread) : list thread -> Prop :=
| s_here : steps first ready ts ts
| s_step : forall ts1 i ts2, steps first ready ts ts1 -> tstep first ready ts1 i = Some ts2 -> steps first ready ts ts2.
Definition idle (ts : list thread) : Prop := forall t, In t ts -> th_ops t = [].
(** The operations that are left *)
Definition left_of (ts : list thread) : nat := fold_right (fun t n => (length (th_ops t) + n)%nat) 0%nat ts.
(** The threads of a load-balancer: packet threads, and thread 0 and 1 for flow requests and the trace *)
Definition roles (i : Z) (c : call) : Prop :=
  match c with CFlow => i = 0 | CTrace => i = 1 | _ => 2 <= i end.
(** The trace client does nothing; the flow client does nothing. *)
Definition deaf (c : client) : bool := match c with FlowReads => true | _ => false end.
Definition silent (c : client) : bool := match c with FlowReads => false | _ => true end.
