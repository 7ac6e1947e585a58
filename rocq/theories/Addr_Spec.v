(** Who reaches whom (C82). *)
From Coq Require Import String.
From Verif Require Import Base Cstr_Model Rangeset_Spec Opt_Model Opt_Spec Addr_Model.

(** ** Executions, and events without anything in between *)
Inductive aexec (N : net) (ok : alabel -> Prop) : list aev -> aworld -> Prop :=
| ax_nil : aexec N ok [] noOne
| ax_step : forall tr w l w' ob, aexec N ok tr w -> ok l -> astep N w l = Some (w', ob) -> aexec N ok (tr ++ ob) w'.
Definition anything (l : alabel) : Prop := True.
(** bind fails only because of addresses that are too long or taken. *)
Definition bind_works (l : alabel) : Prop := match l with LBindFails _ _ => False | _ => True end.
Fixpoint arun (N : net) (w : aworld) (ls : list alabel) : option (aworld * list aev) :=
  match ls with
  | [] => Some (w, [])
  | l :: r => match astep N w l with
              | Some (w1, ob) => match arun N w1 r with Some (w2, obs) => Some (w2, ob ++ obs) | None => None end
              | None => None
              end
  end.

(** ** Texts of addresses *)
Definition unix_text (t n : chars) : Prop := t = str "unix:" ++ n.
Definition tcp_text (t h p : chars) : Prop :=
  (t = str "tcp:[" ++ h ++ str "]:" ++ p /\ ~ In 93 h) \/
  (t = str "tcp:" ++ h ++ str ":" ++ p /\ ~ In 58 h /\ (forall r, h <> 91 :: r)).
(** The text can be used for a server: a name of at most 107 characters, or a TCP
    address that getaddrinfo reads. *)
Definition addr_of (N : net) (t : chars) (a : list Z) : Prop :=
  (exists n, unix_text t n /\ zlen n <= 107 /\ a = [1; 0; 0] ++ n) \/
  (exists h p v, tcp_text t h p /\ is_dec p v /\ v <= 65535 /\ n_gai N h p = Some a).
(** The two texts are the same name, or a connect to the first TCP address arrives
    at the second. *)
Definition same_place (N : net) (t t' : chars) : Prop :=
  (exists n, unix_text t n /\ t' = t) \/
  (exists h p h' p' a a', tcp_text t h p /\ tcp_text t' h' p' /\ n_gai N h p = Some a /\ n_gai N h' p' = Some a' /\ n_meets N a a' = true).

(** The contract of getaddrinfo (AF_INET, AF_INET6) and of TCP: no address is bound
    twice, a connect to the address of a server arrives, and a connect can arrive only
    at one of the servers. *)
Definition net_ok (N : net) : Prop :=
  (forall h p a, n_gai N h p = Some a -> zlen a <= 128 /\ forall r, a <> 1 :: 0 :: r) /\
  (forall a, n_clash N a a = true) /\ (forall a, n_meets N a a = true) /\
  (forall c a b, n_meets N c a = true -> n_meets N c b = true -> n_clash N a b = true).

(** ** Histories *)
Definition running_step (k : Z) (s : srv) (r : option chars) (e : aev) : option chars :=
  match e with
  | Began k' t f => if k' =? k then match s with TraceServer => Some t | FlowServer => f end else r
  | Killed k' | Died k' | Crashed k' => if k' =? k then None else r
  | _ => r
  end.
(** The address with which server s of the running process k was started *)
Definition running (tr : list aev) (k : Z) (s : srv) : option chars := fold_left (running_step k s) tr None.
Definition ends_of (k : Z) (e : aev) : Prop := e = Killed k \/ e = Died k \/ e = Crashed k.
(** At every moment the addresses of the servers that run can be used, and side by
    side. *)
Definition apart (N : net) (tr : list aev) : Prop :=
  forall t1 t2, tr = t1 ++ t2 ->
    (forall k s t, running t1 k s = Some t -> exists a, addr_of N t a) /\
    (forall k s t a k' s' t' a', running t1 k s = Some t -> addr_of N t a -> running t1 k' s' = Some t' -> addr_of N t' a' ->
       (k, s) <> (k', s') -> clash N a a' = false).

(** ** The command lines: lb, flowlb with the environment variable, and clients *)
Definition starts (l : alabel) (k : Z) (s : srv) (t : chars) : Prop :=
  match l with
  | LLb k' ws => k' = k /\ s = TraceServer /\
      exists its tail, ws = line its tail /\ Forall (item_ok lbOpts) its /\ value_of lbOpts its "trace_address" (Some t)
  | LFlowLb k' env ws => k' = k /\
      exists its tail, ws = line its tail /\ Forall (item_ok flowlbOpts) its /\
      match s with
      | TraceServer => value_of flowlbOpts its "trace_address" (Some t)
      | FlowServer => env = Some t \/ env = None /\ t = str "unix:nfqlb"
      end
  | _ => False
  end.
Definition client_of (l : alabel) (c : Z) (t : chars) : Prop :=
  match l with
  | LFlowClient c' env => c' = c /\ (env = Some t \/ env = None /\ t = str "unix:nfqlb")
  | LTraceClient c' ws => c' = c /\ exists its tail, ws = line its tail /\ Forall (item_ok traceOpts) its /\ value_of traceOpts its "trace_address" (Some t)
  | _ => False
  end.
