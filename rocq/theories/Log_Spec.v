(** What is claimed of log and trace (C77), in terms of clients, descriptors
    and the history. *)
From Coq Require Import String.
From Verif Require Import Base Cstr_Model Log_Model.

(** P holds of every event of a history, with the state it happens in. *)
Fixpoint along (P : state -> event -> Prop) (s : state) (es : list event) : Prop :=
  match es with
  | [] => True
  | e :: r => P s e /\ match step s e with None => True | Some s1 => along P s1 r end
  end.

(** The process has got to s by the history es, started in any way. *)
Definition reached (es : list event) (s : state) : Prop := exists n m v, run (start n m v) es = Some s.
Definition reachedBy (P : state -> event -> Prop) (es : list event) (s : state) : Prop :=
  exists n m v, run (start n m v) es = Some s /\ along P (start n m v) es.

(** The time between fclose(tracefile) and close(cd), in which cd is a number
    that means nothing *)
Definition stale (p : spc) : option nat := match p with S133 d | S134 d => Some d | _ => None end.
Definition opens (e : event) : bool := match e with FAccept _ | FDup _ | FMap _ _ => true | _ => false end.

(** No descriptor is opened by another thread in that time.  (In lb no other
    thread opens one at all.) *)
Definition clean (s : state) (e : event) : Prop := opens e = true -> stale (pc s) = None.

(** The server serves its client on descriptor d, and SIGPIPE is ignored. *)
Definition listening (p : spc) : option nat := match p with S122 d | S128 d | S129 d | S131 d | S132 d => Some d | _ => None end.

(** Clients stay until they have been served: flow clients until the flow
    thread has closed, trace clients until the server reads from them. *)
Definition polite (s : state) (e : event) : Prop :=
  forall c, e = EGone c -> ~ In c (tq s ++ fq s) /\ forall d, fds s d = Some (OConn c) -> listening (pc s) = Some d.

Definition orderly (s : state) (e : event) : Prop := clean s e /\ polite s e.

(** Trace is active for client c: its connection is open, between the
    announcement and the end of the session. *)
Definition session (s : state) (c : nat) : Prop :=
  exists d, fds s d = Some (OConn c) /\
    (pc s = S114 d \/ pc s = S116 d \/ pc s = S117 d \/ pc s = S120 d \/ pc s = S122 d \/ pc s = S128 d \/ pc s = S129 d \/ pc s = S131 d \/ pc s = S132 d).

(** The texts of the server itself *)
Definition ownText (l : chars) : Prop :=
  l = str "Trace: accept" ++ newline \/ l = str "Trace: accept returns -1" ++ newline \/ l = str "Trace: fdopen failed" ++ newline \/
  l = str "SIGPIPE TEST" ++ newline \/ l = str "Trace: closed" ++ newline \/
  (exists cd, l = str "Trace; Accepted incoming connection. cd=" ++ cdText cd ++ newline) \/
  (exists m, l = str "Trace; active mask=0x" ++ hex8 m ++ newline) \/ (exists m, l = str "Trace active, mask=0x" ++ hex8 m ++ newline).

(** Texts given to trace or log in the history *)
Definition traced (es : list event) (l : chars) : Prop := (exists t m, In (ETrace t m l) es) \/ (exists t v, In (ELog t v l) es).
Definition replied (es : list event) (l : chars) : Prop := In (FReply l) es \/ In (FList l) es.

(** Client c (the c-th to connect) is a trace client *)
Definition connects (es : list event) : list bool := flat_map (fun e => match e with EConnect b => [b] | _ => [] end) es.
Definition isTrace (es : list event) (c : nat) : Prop := nth_error (connects es) c = Some true.
Definition isFlow (es : list event) (c : nat) : Prop := nth_error (connects es) c = Some false.

(** An event is a step of thread t in logp or tracef or of the server. *)
Definition ownStep (t : nat) (e : event) : Prop := e = EEmit t \/ (t = 0%nat /\ exists d ok, e = EServe d ok).
