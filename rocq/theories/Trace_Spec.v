(** What trace flows should do (C66). *)
From Coq Require Import String.
From Verif Require Import Base Cstr_Model Util_Spec IpKey_Model IpKey_Spec Flow_Model Flow_Spec Remote_Model FlowLb_Model
  Requests_Spec Print_Model Trace_Model.

(** Executions with the moves allowed *)
Inductive texec (L : libc) (P : printer) (may : tworld -> tmove -> Prop) : list (tmove * tevent) -> tworld -> Prop :=
| tx_nil : texec L P may [] tstart
| tx_step : forall tr w m ev w', texec L P may tr w -> may w m -> tstep L P w m = Some (TCont w' ev) ->
    texec L P may (tr ++ [(m, ev)]) w'.
Definition any_time (w : tworld) (m : tmove) : Prop := True.

(** The trace flows requested: the last request to set one that was not
    refused, unless it was deleted *)
Definition is_action (c : flowcmd) (s : string) : Prop := c_action c = Some (str s).
Inductive asked : list (tmove * tevent) -> chars -> option flowcmd -> Prop :=
| asked_none : forall n, asked [] n None
| asked_set : forall tr c n, is_action c "trace-set" -> c_name c = Some n -> asked (tr ++ [(TRequest c, NoAnswer)]) n (Some c)
| asked_delete : forall tr c n ev, is_action c "trace-delete" -> c_name c = Some n -> asked (tr ++ [(TRequest c, ev)]) n None
| asked_before : forall tr m ev n o, asked tr n o ->
    (forall c, m = TRequest c -> c_name c = Some n ->
       (is_action c "trace-set" -> ev <> NoAnswer) /\ ~ is_action c "trace-delete") ->
    asked (tr ++ [(m, ev)]) n o.

(** The request says r. *)
Definition says (L : libc) (c : flowcmd) (r : rule) : Prop := exists n, c_name c = Some n /\ means L (cmdArgs c n 0) r.

(** Packet id, looked up at the end of tr1, has the text ev written at the
    end. *)
Definition written (L : libc) (P : printer) (id eth : Z) (data : list Z) (tr1 : list (tmove * tevent)) (ev : tevent) : Prop :=
  exists tr2 w may, texec L P may (tr1 ++ [(TLookup id eth data, Found)] ++ tr2 ++ [(TWrite id, ev)]) w /\
    forall e, ~ In (TWrite id, e) tr2.

(** The moves for which names are used only while they exist: requests to
    set give a name, and a name is freed when no packet is between its lookup
    and its text with it. *)
Definition careful (w : tworld) (m : tmove) : Prop :=
  match m with
  | TRequest c => is_action c "trace-set" -> c_name c <> None
  | TFree => forall p, In p (x_pk w) -> fd_ref p <> x_free w
  | _ => True
  end.

(** Names in memory *)
Definition in_memory (w : tworld) : Z := zlen (filter (fun o => match o with Some _ => true | None => false end) (x_names w)).
(** Requests to set are not refused, and none is for a flow that exists. *)
Definition no_replacement (tr : list (tmove * tevent)) : Prop :=
  forall tr1 c ev tr2 n, tr = tr1 ++ (TRequest c, ev) :: tr2 -> is_action c "trace-set" -> c_name c = Some n ->
    ev = NoAnswer /\ asked tr1 n None.

(** Definitions as requested *)
Definition requested (tr : list (tmove * tevent)) (now : chars -> option fargs) : Prop :=
  forall n, match now n with
            | Some a => exists c, asked tr n (Some c) /\ as_requested c n a
            | None => asked tr n None
            end.

(** An ICMP echo request with this identifier and sequence number *)
Definition echo (eth : Z) (data : list Z) (id seq : Z) : Prop :=
  exists l4 src dst i1 i2 s1 s2,
    (eth = ETH_IP /\ ipv4_header data 0 l4 1 src dst /\ at_ data l4 [8] \/
     eth = ETH_IPV6 /\ l4 = 40 /\ ipv6_header data 0 58 src dst /\ at_ data l4 [128]) /\
    at_ data (l4 + 4) [i1; i2] /\ at_ data (l4 + 6) [s1; s2] /\ id = i1 * 256 + i2 /\ seq = s1 * 256 + s2.
