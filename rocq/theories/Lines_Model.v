(** The commands on tables from their words to the shared memory:
    src/nfqlb/cmdShm.c (init, delete, show, primebelow) and cmdConfig.c
    (activate, deactivate), on a host with any number of shared memory objects,
    and the load-balancers that have such an object mapped (cmdLb.c:167-168,
    cmdFlowLb.c:440-453).

    An object is a file with a number (inode): shm_unlink takes its name away,
    mappings stay.  A command is one step (its single stores are in Shm_Model.v);
    shm_open fails only for bad names and missing objects.  The text of errors
    and of help is left out. *)
From Coq Require Import String.
From Verif Require Import Base Cstr_Model Rangeset_Model Prime_Model Config_Model Opt_Model Shm_Model.

(** The files, and the file and view of each process that has one mapped *)
Record shmfs := mkFs { s_ino : chars -> option Z; s_data : Z -> list Z; s_next : Z; s_map : Z -> option (Z * view) }.
Definition emptyFs : shmfs := mkFs (fun _ => None) (fun _ => []) 0 (fun _ => None).

(** The name of the file in /dev/shm: glibc, __shm_get_name *)
Fixpoint dropSlash (n : chars) : chars :=
  match n with
  | c :: r => if c =? 47 then dropSlash r else n
  | [] => []
  end.
Definition shmName (n : chars) : option chars :=
  let m := dropSlash n in
  if (zlen m =? 0) || (255 <=? zlen m + 1) || existsb (Z.eqb 47) m then None else Some m.

Definition upd1 {A} (f : chars -> A) (n : chars) (x : A) : chars -> A := fun m => if streq m n then x else f m.
Definition updz {A} (f : Z -> A) (i : Z) (x : A) : Z -> A := fun j => if j =? i then x else f j.

(** shm_open of an object that must exist, and mmap, which fails for an empty
    file: mapSharedData, shmem.c:55-71 *)
Definition openShm (h : shmfs) (shm : chars) : option Z :=
  match shmName shm with
  | None => None
  | Some x => match s_ino h x with
              | None => None
              | Some i => match s_data h i with [] => None | _ => Some i end
              end
  end.
Definition setData (h : shmfs) (i : Z) (f : list Z) : shmfs := mkFs (s_ino h) (updz (s_data h) i f) (s_next h) (s_map h).
(** O_CREAT|O_TRUNC: an existing file is kept, and gets new contents *)
Definition create (h : shmfs) (x : chars) (f : list Z) : shmfs :=
  match s_ino h x with
  | Some i => setData h i f
  | None => mkFs (upd1 (s_ino h) x (Some (s_next h))) (updz (s_data h) (s_next h) f) (s_next h + 1) (s_map h)
  end.

(** What malloc returns to init, what write(2) does, and rand() *)
Record ienv := mkIE { ie_garbage : list Z; ie_writes : list wres; ie_rand : nat -> Z }.

(** A command ends with an exit status and has printed to stdout. *)
Definition ended := outcome (shmfs * Z * chars).

(** parseOptionsOrDie, cmd.c:139-145 *)
Definition withOptions (opts : list opt) (h : shmfs) (ws : list chars) (k : list (option chars) -> list chars -> ended) : ended :=
  do r <- parseOptions opts ws;
  match r with
  | Parsed vals rest => k vals rest
  | Help => Ok (h, 0, [])
  | Refused => Ok (h, 1, [])
  end.

(** cmdShm.c:54-62 *)
Definition adjusted (m p : Z) : chars := if p =? m then [] else str "M adjusted; " ++ dec m ++ str " -> " ++ dec p ++ [10].

(** cmdInit, cmdShm.c:34-67.  The table cannot be too small for magDataDyn_init
    (C06), so the Die of initShm is not reached. *)
Definition lineInit (e : ienv) (h : shmfs) (ws : list chars) : ended :=
  withOptions initOpts h ws (fun vals _ =>
    match vals with
    | [_; Some own; Some shm; Some n; Some m] =>
        let m := u32 (atoi m) in
        do p <- (if m <? 3 then Ok 3 else primeBelow m);
        let n := u32 (atoi n) in
        if n >? p then Ok (h, 1, adjusted m p)
        else
          match shmName shm with
          | None => Ok (h, 1, adjusted m p)
          | Some x =>
              do q <- initShm (atoi own) p n (ie_garbage e) (ie_writes e) (ie_rand e);
              let '(f, good) := q in Ok (create h x f, if good : bool then 0 else 1, adjusted m p)
          end
    | _ => UB
    end).

(** cmdDelete, cmdShm.c:68-82.  shm_unlink of a bad name fails with EINVAL. *)
Definition lineDelete (h : shmfs) (ws : list chars) : ended :=
  withOptions deleteOpts h ws (fun vals _ =>
    match vals with
    | [_; Some shm] =>
        match shmName shm with
        | None => Ok (h, 1, [])
        | Some x => Ok (mkFs (upd1 (s_ino h) x None) (s_data h) (s_next h) (s_map h), 0, [])
        end
    | _ => UB
    end).

(** cmdConfig.c from the mapping on *)
Definition runOn (h : shmfs) (i : Z) (c : cmd) : ended :=
  match wrun (s_data h i) c with
  | Ok (f, _) => Ok (setData h i f, 0, [])
  | Die => Ok (h, 1, [])
  | UB => UB
  | Fuel => Fuel
  end.
(** cmdActivate, cmdConfig.c:15-72 *)
Definition lineActivate (h : shmfs) (ws : list chars) : ended :=
  withOptions configOpts h ws (fun vals rest =>
    match vals with
    | [_; Some shm; index] =>
        match openShm h shm with
        | None => Ok (h, 1, [])
        | Some i =>
            match index, rest with
            | Some _, [] => do _ <- map_view (s_data h i); Ok (h, 0, [])
            | Some t, w :: _ => runOn h i (ActivateIdx (atoi t) (atoi w))
            | None, _ => runOn h i (Activate (map atoi rest))
            end
        end
    | _ => UB
    end).
(** cmdDeactivate, cmdConfig.c:74-121 *)
Definition lineDeactivate (h : shmfs) (ws : list chars) : ended :=
  withOptions configOpts h ws (fun vals rest =>
    match vals with
    | [_; Some shm; index] =>
        match openShm h shm with
        | None => Ok (h, 1, [])
        | Some i =>
            match index with
            | Some t => runOn h i (DeactivateIdx (atoi t))
            | None => runOn h i (Deactivate (map atoi rest))
            end
        end
    | _ => UB
    end).
(** cmdShow, cmdShm.c:100-134 *)
Definition lineShow (h : shmfs) (ws : list chars) : ended :=
  withOptions showOpts h ws (fun vals _ =>
    match vals with
    | [_; Some shm] =>
        match openShm h shm with
        | None => Ok (h, 1, [])
        | Some i => do t <- cmdShow shm (s_data h i); Ok (h, 0, t)
        end
    | _ => UB
    end).
(** cmdPrimeBelow, cmdShm.c:84-98 *)
Definition linePrime (h : shmfs) (ws : list chars) : ended :=
  withOptions noOpts h ws (fun _ rest =>
    match rest with
    | [] => Ok (h, 0, [])
    | w :: _ =>
        match primeBelow (u32 (atoi w)) with
        | Ok p => Ok (h, 0, dec p ++ [10])
        | Die => Ok (h, 1, [])
        | UB => UB
        | Fuel => Fuel
        end
    end).

(** handleCmd, cmd.c:32-51 (the table of commands is in Util_Model.v), for these
    commands; [ws] are the words behind the program's name.  Any other command
    leaves the tables alone. *)
Definition exec (e : ienv) (h : shmfs) (ws : list chars) : ended :=
  match ws with
  | [] => Ok (h, 0, [])
  | c :: r =>
      if streq c (str "init") then lineInit e h r
      else if streq c (str "delete") then lineDelete h r
      else if streq c (str "activate") then lineActivate h r
      else if streq c (str "deactivate") then lineDeactivate h r
      else if streq c (str "show") then lineShow h r
      else if streq c (str "primebelow") then linePrime h r
      else Ok (h, 1, [])
  end.

(** A load-balancer maps a table: mapSharedDataOrDie and magDataDyn_map *)
Definition mapTable (h : shmfs) (k : Z) (shm : chars) : outcome (shmfs * bool) :=
  match openShm h shm with
  | None => Ok (mkFs (s_ino h) (s_data h) (s_next h) (updz (s_map h) k None), false)
  | Some i => do v <- map_view (s_data h i); Ok (mkFs (s_ino h) (s_data h) (s_next h) (updz (s_map h) k (Some (i, v))), true)
  end.

(** What happens on the host: a command line is executed, process k maps a table,
    process k looks a hash up *)
Inductive hevent := ELine (e : ienv) (ws : list chars) | EMap (k : Z) (shm : chars) | ELook (k hash : Z).
Inductive hobs := OLine (status : Z) (out : chars) | OMap (ok : bool) | OLook (x : option Z).
Definition hdo (h : shmfs) (v : hevent) : outcome (shmfs * hobs) :=
  match v with
  | ELine e ws => do r <- exec e h ws; let '(h', st, out) := r in Ok (h', OLine st out)
  | EMap k shm => do r <- mapTable h k shm; Ok (fst r, OMap (snd r))
  | ELook k hash =>
      match s_map h k with
      | None => Ok (h, OLook None)
      | Some (i, v) => do x <- wread2 v (s_data h i) (s_data h i) hash; Ok (h, OLook (Some x))
      end
  end.
Fixpoint hdos (h : shmfs) (vs : list hevent) : outcome (shmfs * list hobs) :=
  match vs with
  | [] => Ok (h, [])
  | v :: r => do p <- hdo h v; do q <- hdos (fst p) r; Ok (fst q, snd p :: snd q)
  end.
