(** The log configuration in shared memory: the commands loglevel and trace
    (src/nfqlb/cmdTrace.c:38-114) and the load-balancers (cmdLb.c:164-165,
    cmdFlowLb.c:281-282) through logConfigShm (src/lib/log.c:67-74), with any
    number of processes.  A step is what one process does without another one
    getting in between.

    Simplifications: accesses to the members are atomic; the 8 bytes are
    written by one write(2) or not at all; nobody removes the object, makes a
    table with its name, or lacks the rights to open it; stdout takes everything
    that is printed by printf; the socket of a trace client can be made. *)
From Coq Require Import String.
From Verif Require Import Base Cstr_Model Rangeset_Model Util_Model Opt_Model Shm_Model Log_Model.

(** What a process does with the configuration: be a load-balancer, or a command
    with its argument *)
Inductive job := JLb | JLevel (n : option Z) | JTrace (m : Z).
(** The step a process is about to do *)
Inductive pstate :=
| Off
| Open1 (j : job)    (* log.c:69, shmem.c:56, shm_open *)
| Stat1 (j : job)    (* shmem.c:60-64, fstat and mmap *)
| Create (j : job)   (* log.c:72, shmem.c:40 *)
| Write (j : job)    (* shmem.c:42 *)
| Open2 (j : job)    (* log.c:73 *)
| Stat2 (j : job)
| Set_ (j : job)     (* cmdTrace.c:73, 109-110 *)
| Tell               (* cmdTrace.c:112 *)
| Connect            (* cmdTrace.c:75-84 *)
| Copy               (* cmdTrace.c:86-92 *)
| Serve              (* a load-balancer at work *)
| Gone.

(** The object: not there, empty, or with level and mask *)
Record cworld := mkC { c_obj : option (option (Z * Z)); c_procs : Z -> pstate }.
Definition cstart : cworld := mkC None (fun _ => Off).

(** What is seen: a load-balancer uses the level or the mask, a store, text on
    stdout, the end with a status, death by SIGBUS *)
Inductive cobs :=
| SeesLevel (k v : Z) | SeesMask (k v : Z) | SetsLevel (k v : Z) | SetsMask (k v : Z)
| Prints (k : Z) (t : chars) | Ends (k status : Z) | Crashes (k : Z).

(** A command line, cmdTrace.c:38-71 and 97-107: a status at once, or text and a job *)
Definition lineLoglevel (ws : list chars) : outcome (Z + chars * job) :=
  do r <- parseOptions noOpts ws;
  match r with
  | Parsed _ rest => Ok (inr ([], JLevel (match rest with w :: _ => Some (atoi w) | [] => None end)))
  | Help => Ok (inl 0)
  | Refused => Ok (inl 1)
  end.
Definition lineTrace (ws : list chars) : outcome (Z + chars * job) :=
  do r <- parseOptions traceOpts ws;
  match r with
  | Parsed [_; m; s; _] _ =>
      match cmdTrace_mask m s with
      | Ok x => Ok (inr (str "Mask=0x" ++ hex8 x ++ [10], JTrace x))
      | Die => Ok (inl 1)
      | UB => UB
      | Fuel => Fuel
      end
  | Parsed _ _ => UB
  | Help => Ok (inl 0)
  | Refused => Ok (inl 1)
  end.

(** What happens next: process k starts as a load-balancer or by a line, does its
    next step, cannot write (shmem.c:43), reads from the trace server or is
    at the end of it, is killed; a load-balancer uses level or mask, or its trace
    server ends a session (log.c:129). *)
Inductive clabel :=
| LLb (k : Z) | LLevel (k : Z) (ws : list chars) | LTrace (k : Z) (ws : list chars)
| LStep (k : Z) | LFails (k : Z) | LText (k : Z) (t : chars) | LEof (k : Z) | LKill (k : Z)
| LLook (k : Z) | LMask (k : Z) | LClear (k : Z).

Definition pupd (f : Z -> pstate) (k : Z) (p : pstate) : Z -> pstate := fun i => if i =? k then p else f i.
Definition at_state (w : cworld) (k : Z) (p : pstate) : cworld := mkC (c_obj w) (pupd (c_procs w) k p).

(** An access to the mapped object; beyond the end of an object that was
    truncated: SIGBUS *)
Definition access (w : cworld) (k : Z) (f : Z * Z -> cworld * list cobs) : cworld * list cobs :=
  match c_obj w with
  | Some (Some c) => f c
  | _ => (at_state w k Gone, [Crashes k])
  end.
(** The first step with the mapped object *)
Definition mapped (j : job) : pstate :=
  match j with JLb => Serve | JLevel None => Tell | _ => Set_ j end.

Definition pstep (w : cworld) (k : Z) : option (cworld * list cobs) :=
  match c_procs w k with
  | Open1 j => Some (at_state w k (match c_obj w with None => Create j | Some _ => Stat1 j end), [])
  | Stat1 j => Some (at_state w k (match c_obj w with Some (Some _) => mapped j | _ => Create j end), [])
  | Create j => Some (mkC (Some None) (pupd (c_procs w) k (Write j)), [])
  | Write j => Some (mkC (Some (Some (5, 0))) (pupd (c_procs w) k (Open2 j)), [])
  | Open2 j =>
      match c_obj w with
      | None => Some (at_state w k Gone, [Ends k 1])
      | Some _ => Some (at_state w k (Stat2 j), [])
      end
  | Stat2 j =>
      match c_obj w with
      | Some (Some _) => Some (at_state w k (mapped j), [])
      | _ => Some (at_state w k Gone, [Ends k 1])
      end
  | Set_ (JLevel (Some n)) =>
      Some (access w k (fun c => (mkC (Some (Some (n, snd c))) (pupd (c_procs w) k Tell), [SetsLevel k n])))
  | Set_ (JTrace m) =>
      Some (access w k (fun c => (mkC (Some (Some (fst c, m))) (pupd (c_procs w) k Connect), [SetsMask k m])))
  | Tell =>
      Some (access w k (fun c => (at_state w k Gone, [Prints k (str "loglevel=" ++ sdec (fst c) ++ [10]); Ends k 0])))
  | Connect => Some (at_state w k Copy, [])
  | _ => None
  end.

Definition begin (w : cworld) (k : Z) (r : outcome (Z + chars * job)) : option (cworld * list cobs) :=
  match c_procs w k, r with
  | Off, Ok (inl s) => Some (at_state w k Gone, [Ends k s])
  | Off, Ok (inr (t, j)) => Some (at_state w k (Open1 j), match t with [] => [] | _ => [Prints k t] end)
  | _, _ => None
  end.

Definition cstep (w : cworld) (l : clabel) : option (cworld * list cobs) :=
  match l with
  | LLb k => begin w k (Ok (inr ([], JLb)))
  | LLevel k ws => begin w k (lineLoglevel ws)
  | LTrace k ws => begin w k (lineTrace ws)
  | LStep k => pstep w k
  | LFails k =>
      match c_procs w k with
      | Write _ | Connect | Copy => Some (at_state w k Gone, [Ends k 1])
      | _ => None
      end
  | LText k t => match c_procs w k with Copy => Some (w, [Prints k t]) | _ => None end
  | LEof k => match c_procs w k with Copy => Some (at_state w k Gone, [Ends k 0]) | _ => None end
  | LKill k => match c_procs w k with Off | Gone => None | _ => Some (at_state w k Gone, []) end
  | LLook k => match c_procs w k with Serve => Some (access w k (fun c => (w, [SeesLevel k (fst c)]))) | _ => None end
  | LMask k => match c_procs w k with Serve => Some (access w k (fun c => (w, [SeesMask k (snd c)]))) | _ => None end
  | LClear k =>
      match c_procs w k with
      | Serve => Some (access w k (fun c => (mkC (Some (Some (fst c, 0))) (c_procs w), [SetsMask k 0])))
      | _ => None
      end
  end.
