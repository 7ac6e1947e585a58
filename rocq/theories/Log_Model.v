(** Log and trace, src/lib/log.c and log.h, with the descriptors of the process.

    Any number of threads log and trace.  Thread 0 is the trace server; the
    thread of flowlb that serves flow clients (cmdFlowLb.c:484-568) appears
    with the descriptors it opens, writes to and closes.  A step is what one
    thread does without another one getting in between; every access to
    "tracefile", the shared log configuration, the lock, a FILE or a descriptor
    is a step of its own.  Clients and other processes (the commands trace and
    loglevel, which write the shared configuration) do what they please.

    Simplifications: accesses to variables are atomic; a text is written by
    one write(2) that takes all of it or none (a stream with line buffering,
    texts end in a newline); the sockets are local ones (unix:, the default),
    on which a write fails as soon as the peer is gone; stderr takes
    everything; the start of the server (84-96) has been done. *)
From Coq Require Import String.
From Verif Require Import Base Cstr_Model Rangeset_Model.

(** ** Descriptors *)

(** What a descriptor refers to: a connection, a shared memory object, other *)
Inductive obj := OConn (c : nat) | OShm (n : chars) | OOther.

(** The value of tracefile: NULL, stderr, or a FILE made by fdopen *)
Inductive tfile := TNull | TErr | TFile (f : nat).

(** What a thread is doing in logp or tracef, log.c:27-63 *)
Inductive estate :=
| Idle
| Check (l : chars)  (* 49: in logp, the text has been written to the log *)
| Want (l : chars)   (* 29, 53: before LOCK *)
| Have (l : chars)   (* 30, 54: the lock is held *)
| Print (l : chars)  (* 36, 59: before vfprintf *)
| Leave.             (* 38, 61: before UNLOCK *)

(** The trace server, log.c:97-138; the number is the line about to be
    executed, cd the local variable *)
Inductive spc :=
| S98 | S99 | S100 (cd : option nat) | S101 (cd : option nat) | S105 (cd : nat) | S106 (cd : nat) | S108 (cd : nat) | S109 (cd : nat)
| S110 (cd : nat) | S113 (cd : nat) | S114 (cd : nat) | S116 (cd : nat) | S117 (cd : nat) | S120 (cd : nat) | S122 (cd : nat)
| S128 (cd : nat) | S129 (cd : nat) | S131 (cd : nat) | S132 (cd : nat) | S133 (cd : nat) | S134 (cd : nat) | S135 | S136 | S137.

(** The flow thread: at accept, or with a client and its second descriptor
    for listings, if any (cmdFlowLb.c:512-566) *)
Inductive fthread := FIdle | FServe (cd : nat) (out : option nat).

(** The process runs, was killed by SIGPIPE, called die, or its behaviour is
    undefined. *)
Inductive status := Runs | Killed | Died | Undef.

Record state := mkS {
  st : status;
  lock : option nat;                (* log.c:23, the thread that holds it *)
  tf : tfile;                       (* log.c:21 *)
  files : nat -> option nat;        (* the FILEs that are open, with their descriptors *)
  nfile : nat;
  fds : nat -> option obj;
  ign : bool;                       (* SIGPIPE is ignored *)
  mask : Z; level : Z;              (* log.h:11-14, shared *)
  ems : nat -> estate;
  pc : spc;
  flow : fthread;
  held : list (chars * nat);        (* load-balancer objects: the target and fd *)
  tq : list nat; fq : list nat;     (* connections waiting for accept *)
  nconn : nat;
  gone : nat -> bool;               (* the peer has closed *)
  sent : nat -> bool;               (* the peer has sent something *)
  full : nat -> bool;               (* no room in the buffer of the peer *)
  got : nat -> list chars;          (* what the peer has been sent *)
  err : list chars                  (* what has been written to stderr *)
}.

Definition upd {A} (g : nat -> A) (i : nat) (x : A) : nat -> A := fun j => if Nat.eqb j i then x else g j.

(** Updates of single members *)
Definition wSt x s := mkS x (lock s) (tf s) (files s) (nfile s) (fds s) (ign s) (mask s) (level s) (ems s) (pc s) (flow s) (held s) (tq s) (fq s) (nconn s) (gone s) (sent s) (full s) (got s) (err s).
Definition wLock x s := mkS (st s) x (tf s) (files s) (nfile s) (fds s) (ign s) (mask s) (level s) (ems s) (pc s) (flow s) (held s) (tq s) (fq s) (nconn s) (gone s) (sent s) (full s) (got s) (err s).
Definition wTf x s := mkS (st s) (lock s) x (files s) (nfile s) (fds s) (ign s) (mask s) (level s) (ems s) (pc s) (flow s) (held s) (tq s) (fq s) (nconn s) (gone s) (sent s) (full s) (got s) (err s).
Definition wFile f x s := mkS (st s) (lock s) (tf s) (upd (files s) f x) (nfile s) (fds s) (ign s) (mask s) (level s) (ems s) (pc s) (flow s) (held s) (tq s) (fq s) (nconn s) (gone s) (sent s) (full s) (got s) (err s).
Definition newFile fd s := mkS (st s) (lock s) (TFile (nfile s)) (upd (files s) (nfile s) (Some fd)) (S (nfile s)) (fds s) (ign s) (mask s) (level s) (ems s) (pc s) (flow s) (held s) (tq s) (fq s) (nconn s) (gone s) (sent s) (full s) (got s) (err s).
Definition wFd d x s := mkS (st s) (lock s) (tf s) (files s) (nfile s) (upd (fds s) d x) (ign s) (mask s) (level s) (ems s) (pc s) (flow s) (held s) (tq s) (fq s) (nconn s) (gone s) (sent s) (full s) (got s) (err s).
Definition wIgn x s := mkS (st s) (lock s) (tf s) (files s) (nfile s) (fds s) x (mask s) (level s) (ems s) (pc s) (flow s) (held s) (tq s) (fq s) (nconn s) (gone s) (sent s) (full s) (got s) (err s).
Definition wMask x s := mkS (st s) (lock s) (tf s) (files s) (nfile s) (fds s) (ign s) x (level s) (ems s) (pc s) (flow s) (held s) (tq s) (fq s) (nconn s) (gone s) (sent s) (full s) (got s) (err s).
Definition wLevel x s := mkS (st s) (lock s) (tf s) (files s) (nfile s) (fds s) (ign s) (mask s) x (ems s) (pc s) (flow s) (held s) (tq s) (fq s) (nconn s) (gone s) (sent s) (full s) (got s) (err s).
Definition wEm t x s := mkS (st s) (lock s) (tf s) (files s) (nfile s) (fds s) (ign s) (mask s) (level s) (upd (ems s) t x) (pc s) (flow s) (held s) (tq s) (fq s) (nconn s) (gone s) (sent s) (full s) (got s) (err s).
Definition wPc x s := mkS (st s) (lock s) (tf s) (files s) (nfile s) (fds s) (ign s) (mask s) (level s) (ems s) x (flow s) (held s) (tq s) (fq s) (nconn s) (gone s) (sent s) (full s) (got s) (err s).
Definition wFlow x s := mkS (st s) (lock s) (tf s) (files s) (nfile s) (fds s) (ign s) (mask s) (level s) (ems s) (pc s) x (held s) (tq s) (fq s) (nconn s) (gone s) (sent s) (full s) (got s) (err s).
Definition wHeld x s := mkS (st s) (lock s) (tf s) (files s) (nfile s) (fds s) (ign s) (mask s) (level s) (ems s) (pc s) (flow s) x (tq s) (fq s) (nconn s) (gone s) (sent s) (full s) (got s) (err s).
Definition wQ x y s := mkS (st s) (lock s) (tf s) (files s) (nfile s) (fds s) (ign s) (mask s) (level s) (ems s) (pc s) (flow s) (held s) x y (nconn s) (gone s) (sent s) (full s) (got s) (err s).
Definition newConn s := mkS (st s) (lock s) (tf s) (files s) (nfile s) (fds s) (ign s) (mask s) (level s) (ems s) (pc s) (flow s) (held s) (tq s) (fq s) (S (nconn s)) (gone s) (sent s) (full s) (got s) (err s).
Definition wGone c x s := mkS (st s) (lock s) (tf s) (files s) (nfile s) (fds s) (ign s) (mask s) (level s) (ems s) (pc s) (flow s) (held s) (tq s) (fq s) (nconn s) (upd (gone s) c x) (sent s) (full s) (got s) (err s).
Definition wSent c x s := mkS (st s) (lock s) (tf s) (files s) (nfile s) (fds s) (ign s) (mask s) (level s) (ems s) (pc s) (flow s) (held s) (tq s) (fq s) (nconn s) (gone s) (upd (sent s) c x) (full s) (got s) (err s).
Definition wFull c x s := mkS (st s) (lock s) (tf s) (files s) (nfile s) (fds s) (ign s) (mask s) (level s) (ems s) (pc s) (flow s) (held s) (tq s) (fq s) (nconn s) (gone s) (sent s) (upd (full s) c x) (got s) (err s).
Definition wGot c x s := mkS (st s) (lock s) (tf s) (files s) (nfile s) (fds s) (ign s) (mask s) (level s) (ems s) (pc s) (flow s) (held s) (tq s) (fq s) (nconn s) (gone s) (sent s) (full s) (upd (got s) c x) (err s).
Definition wErr x s := mkS (st s) (lock s) (tf s) (files s) (nfile s) (fds s) (ign s) (mask s) (level s) (ems s) (pc s) (flow s) (held s) (tq s) (fq s) (nconn s) (gone s) (sent s) (full s) (got s) x.

(** A new descriptor is the lowest one that is free, open(2), accept(2). *)
Definition lowest (s : state) (d : nat) : bool :=
  match fds s d with
  | Some _ => false
  | None => forallb (fun i => match fds s i with Some _ => true | None => false end) (seq 0 d)
  end.

(** write(2) of a text; None: it blocks.  Writing to a connection whose peer
    is gone raises SIGPIPE; write errors are ignored by all callers. *)
Definition write (s : state) (d : nat) (l : chars) : option state :=
  match fds s d with
  | Some (OConn c) =>
      if gone s c then Some (if ign s then s else wSt Killed s)
      else if full s c then None
      else Some (wGot c (got s c ++ [l]) s)
  | _ => Some s
  end.

(** vfprintf(tracefile, ...) *)
Definition vprint (s : state) (l : chars) : option state :=
  match tf s with
  | TNull => Some (wSt Undef s)
  | TErr => Some (wErr (err s ++ [l]) s)
  | TFile f => match files s f with None => Some (wSt Undef s) | Some d => write s d l end
  end.

(** The process after thread t has gone on in logp or tracef *)
Definition emit (s : state) (t : nat) : option state :=
  match ems s t with
  | Idle => None
  | Check l =>                                                   (* log.c:49 *)
      Some (wEm t (match tf s with TNull => Idle | _ => if Z.land (mask s) 1 =? 0 then Idle else Want l end) s)
  | Want l => match lock s with None => Some (wEm t (Have l) (wLock (Some t) s)) | Some _ => None end
  | Have l => Some (wEm t (match tf s with TNull => Leave | _ => Print l end) s)
  | Print l => match vprint s l with None => None | Some s1 => Some (wEm t Leave s1) end
  | Leave => Some (wEm t Idle (wLock None s))
  end.

(** trace(m, ...), log.h:42-43, when thread t calls it *)
Definition traces (s : state) (t : nat) (m : Z) (l : chars) : state := if Z.land (mask s) m =? 0 then s else wEm t (Want l) s.

(** warning(...), notice(...), info(...), debug(...), log.h:31-38 *)
Definition logs (s : state) (t : nat) (v : Z) (l : chars) : state :=
  if level s <? v then s else wEm t (Check l) (wErr (err s ++ [l]) s).

(** printf("%08x") *)
Definition hexDigit (v : Z) : Z := if v <? 10 then 48 + v else 87 + v.
Definition hex8 (v : Z) : chars := map (fun k => hexDigit (Z.shiftr v (4 * k) mod 16)) [7; 6; 5; 4; 3; 2; 1; 0].
Definition cdText (cd : option nat) : chars := match cd with None => str "-1" | Some d => dec (Z.of_nat d) end.
Definition newline : chars := [10].

(** The trace server goes on; d and ok say what accept and fdopen return. *)
Definition serve (s : state) (d : nat) (ok : bool) : option state :=
  match ems s 0%nat with
  | Idle =>
      match pc s with
      | S98 => Some (wPc S99 (logs s 0 7 (str "Trace: accept" ++ newline)))
      | S99 =>
          if ok then
            match tq s with
            | [] => None
            | c :: q => if lowest s d then Some (wPc (S100 (Some d)) (wQ q (fq s) (wFd d (Some (OConn c)) s))) else None
            end
          else Some (wPc (S100 None) s)
      | S100 cd => Some (wPc (S101 cd) (logs s 0 6 (str "Trace; Accepted incoming connection. cd=" ++ cdText cd ++ newline)))
      | S101 cd =>
          match cd with
          | None => Some (wPc S98 (logs s 0 4 (str "Trace: accept returns -1" ++ newline)))
          | Some d => Some (wPc (S105 d) s)
          end
      | S105 cd => match lock s with None => Some (wPc (S106 cd) (wLock (Some 0%nat) s)) | Some _ => None end
      | S106 cd => if ok then Some (wPc (S113 cd) (newFile cd s)) else Some (wPc (S108 cd) (wTf TNull s))
      | S108 cd => Some (wPc (S109 cd) (wLock None s))
      | S109 cd => Some (wPc (S110 cd) (logs s 0 4 (str "Trace: fdopen failed" ++ newline)))
      | S110 cd => Some (wPc S98 (wFd cd None s))
      | S113 cd => Some (wPc (S114 cd) (match tf s with TNull => wSt Undef s | TErr => s | TFile f => match files s f with None => wSt Undef s | Some _ => s end end))
      | S114 cd => Some (wPc (S116 cd) (wLock None s))
      | S116 cd => Some (wPc (S117 cd) (logs s 0 4 (str "Trace; active mask=0x" ++ hex8 (mask s) ++ newline)))
      | S117 cd => Some (wPc (S120 cd) (wEm 0 (Want (str "Trace active, mask=0x" ++ hex8 (mask s) ++ newline)) s))
      | S120 cd => Some (wPc (S122 cd) (wIgn true s))
      | S122 cd =>
          match fds s cd with
          | Some (OConn c) => if gone s c || sent s c then Some (wPc (S128 cd) s) else None
          | _ => Some (wPc (S128 cd) s)
          end
      | S128 cd => Some (wPc (S129 cd) (wEm 0 (Want (str "SIGPIPE TEST" ++ newline)) s))
      | S129 cd => Some (wPc (S131 cd) (wMask 0 s))
      | S131 cd => match lock s with None => Some (wPc (S132 cd) (wLock (Some 0%nat) s)) | Some _ => None end
      | S132 cd =>
          Some (wPc (S133 cd)
                  (match tf s with
                   | TNull => wSt Undef s
                   | TErr => s
                   | TFile f => match files s f with None => wSt Undef s | Some d => wFd d None (wFile f None s) end
                   end))
      | S133 cd => Some (wPc (S134 cd) (wTf TNull s))
      | S134 cd => Some (wPc S135 (wFd cd None s))
      | S135 => Some (wPc S136 (wLock None s))
      | S136 => Some (wPc S137 (wIgn false s))
      | S137 => Some (wPc S98 (logs s 0 4 (str "Trace: closed" ++ newline)))
      end
  | _ => None
  end.

(** What happens *)
Inductive event :=
| ETrace (t : nat) (m : Z) (l : chars)      (* thread t calls trace *)
| ELog (t : nat) (v : Z) (l : chars)        (* thread t logs at level v *)
| EEmit (t : nat)                           (* thread t goes on in logp or tracef *)
| EServe (d : nat) (ok : bool)              (* the trace server goes on *)
| FAccept (d : nat)                         (* the flow thread: accept, cmdFlowLb.c:512 *)
| FReply (l : chars)                        (* writeReply, cmdFlowLb.c:469-474 *)
| FDup (d : nat)                            (* fdopen(dup(cd)), 533, 546, 555 *)
| FList (l : chars)                         (* a part of a listing *)
| FClose                                    (* fclose(in), fclose(out), 506-509 *)
| FMap (n : chars) (d : nat)                (* loadbalancerFindOrCreate, 440-456 *)
| LRelease (n : chars) (d : nat)            (* the end of loadbalancerRelease, 409-415, by any thread *)
| EConnect (trace : bool)                   (* a client connects to the trace or the flow socket *)
| EGone (c : nat) | ESend (c : nat) | EFull (c : nat) | EDrain (c : nat)
| EMask (m : Z) | ELevel (v : Z).

Definition dropHeld (n : chars) (d : nat) (l : list (chars * nat)) : list (chars * nat) :=
  filter (fun x => negb (streq (fst x) n && Nat.eqb (snd x) d)) l.

Definition step (s : state) (e : event) : option state :=
  match st s with
  | Runs =>
      match e with
      | ETrace t m l => match t, ems s t with S _, Idle => Some (traces s t m l) | _, _ => None end
      | ELog t v l => match t, ems s t with S _, Idle => Some (logs s t v l) | _, _ => None end
      | EEmit t => emit s t
      | EServe d ok => serve s d ok
      | FAccept d =>
          match flow s, fq s with
          | FIdle, c :: q => if lowest s d then Some (wFlow (FServe d None) (wQ (tq s) q (wFd d (Some (OConn c)) s))) else None
          | _, _ => None
          end
      | FReply l => match flow s with FIdle => None | FServe cd _ => write s cd l end
      | FDup d =>
          match flow s with
          | FServe cd None => if lowest s d then Some (wFlow (FServe cd (match fds s cd with None => None | Some _ => Some d end)) (wFd d (fds s cd) s)) else None
          | _ => None
          end
      | FList l => match flow s with FServe _ (Some d) => write s d l | _ => None end
      | FClose =>
          match flow s with
          | FIdle => None
          | FServe cd out => Some (wFlow FIdle (let s1 := wFd cd None s in match out with None => s1 | Some d => wFd d None s1 end))
          end
      | FMap n d => if lowest s d then Some (wHeld ((n, d) :: held s) (wFd d (Some (OShm n)) s)) else None
      | LRelease n d =>
          if existsb (fun x => streq (fst x) n && Nat.eqb (snd x) d) (held s) then
            match fds s d with
            | None => Some (wSt Died s)
            | Some _ => Some (wFd d None (wHeld (dropHeld n d (held s)) s))
            end
          else None
      | EConnect trace =>
          let c := nconn s in
          Some (newConn (if trace then wQ (tq s ++ [c]) (fq s) s else wQ (tq s) (fq s ++ [c]) s))
      | EGone c => if Nat.ltb c (nconn s) then Some (wGone c true s) else None
      | ESend c => if Nat.ltb c (nconn s) && negb (gone s c) then Some (wSent c true s) else None
      | EFull c => if Nat.ltb c (nconn s) then Some (wFull c true s) else None
      | EDrain c => if Nat.ltb c (nconn s) then Some (wFull c false s) else None
      | EMask m => Some (wMask m s)
      | ELevel v => Some (wLevel v s)
      end
  | _ => None
  end.

(** A history *)
Fixpoint run (s : state) (es : list event) : option state :=
  match es with
  | [] => Some s
  | e :: r => match step s e with None => None | Some s1 => run s1 r end
  end.

(** The process when the trace server has been started, log.c:76-97; the
    descriptors below n are in use. *)
Definition start (n : nat) (m v : Z) : state :=
  mkS Runs None TErr (fun _ => None) 0 (fun d => if Nat.ltb d n then Some OOther else None) false m v (fun _ => Idle) S98 FIdle [] [] [] 0
      (fun _ => false) (fun _ => false) (fun _ => false) (fun _ => []) [].
