(** Model of the activate/deactivate commands: src/nfqlb/cmdConfig.c. *)
From Verif Require Import Base Maglev_Model.

(** cmdConfig.c:54-62, the scan over the active array for one argument of
    activate: [k] remaining entries from index [i]; [fe] is first_empty.  Result:
    found and first_empty. *)
Fixpoint scan (active : list Z) (fw : Z) (k : nat) (i fe : Z) : outcome (bool * Z) :=
  match k with
  | O => Ok (false, fe)
  | S k' =>
      do a <- aget active i;
      let fe' := if (fe <? 0) && (a <? 0) then i else fe in
      if a =? fw then Ok (true, fe') else scan active fw k' (i + 1) fe'
  end.

(** cmdConfig.c:51-67: the loop over the arguments of activate (already converted
    by atoi).  Stores are returned in program order. *)
Fixpoint activate_args (N : Z) (active : list Z) (fws : list Z) (changed : bool)
  : outcome (list Z * bool * list store) :=
  match fws with
  | [] => Ok (active, changed, [])
  | fw :: rest =>
      do p <- scan active fw (Z.to_nat N) 0 (-1);
      let '(found, fe) := p in
      if negb found && (0 <=? fe) then
        do a' <- aset active fe fw;
        do q <- activate_args N a' rest true;
        let '(a'', ch, tr) := q in Ok (a'', ch, WActive fe fw :: tr)
      else activate_args N active rest changed
  end.

(** cmdConfig.c:109-115: the scan of deactivate; result: index found or -1. *)
Fixpoint scan_eq (active : list Z) (fw : Z) (k : nat) (i : Z) : outcome Z :=
  match k with
  | O => Ok (-1)
  | S k' =>
      do a <- aget active i;
      if a =? fw then Ok i else scan_eq active fw k' (i + 1)
  end.

(** cmdConfig.c:107-116: the loop over the arguments of deactivate. *)
Fixpoint deactivate_args (N : Z) (active : list Z) (fws : list Z) (changed : bool)
  : outcome (list Z * bool * list store) :=
  match fws with
  | [] => Ok (active, changed, [])
  | fw :: rest =>
      do i <- scan_eq active fw (Z.to_nat N) 0;
      if 0 <=? i then
        do a' <- aset active i (-1);
        do q <- deactivate_args N a' rest true;
        let '(a'', ch, tr) := q in Ok (a'', ch, WActive i (-1) :: tr)
      else deactivate_args N active rest changed
  end.

Inductive cmd :=
| Activate (fws : list Z)           (* activate <fwmarks...> *)
| ActivateIdx (i : Z) (fw : Z)      (* activate --index=i <fwmark> *)
| Deactivate (fws : list Z)         (* deactivate <fwmarks...> *)
| DeactivateIdx (i : Z).            (* deactivate --index=i *)

Definition with_active (m : mag) (a : list Z) : mag :=
  mkMag (mM m) (mN m) (mlookup m) (mperm m) a.

(** cmdConfig.c:43-46,68-69,99-102,117-118: populate when something was stored. *)
Definition finish (m : mag) (changed : bool) (tr : list store) : outcome (mag * list store) :=
  if changed then
    do p <- magDataDyn_populate m;
    let '(m', tr') := p in Ok (m', tr ++ tr')
  else Ok (m, tr).

(** cmdActivate (cmdConfig.c:15-72) and cmdDeactivate (74-121), after option parsing
    and mapping of the shared memory.  [i >= magd.N] compares as unsigned. *)
Definition run_cmd (m : mag) (c : cmd) : outcome (mag * list store) :=
  match c with
  | Activate fws =>
      do p <- activate_args (mN m) (mactive m) fws false;
      let '(a, ch, tr) := p in finish (with_active m a) ch tr
  | ActivateIdx i fw =>
      if u32 i >=? mN m then Die
      else
        do a <- aget (mactive m) i;
        if a =? fw then Ok (m, [])
        else
          do a' <- aset (mactive m) i fw;
          finish (with_active m a') true [WActive i fw]
  | Deactivate fws =>
      do p <- deactivate_args (mN m) (mactive m) fws false;
      let '(a, ch, tr) := p in finish (with_active m a) ch tr
  | DeactivateIdx i =>
      if u32 i >=? mN m then Die
      else
        do a <- aget (mactive m) i;
        if 0 <=? a then
          do a' <- aset (mactive m) i (-1);
          finish (with_active m a') true [WActive i (-1)]
        else Ok (m, [])
  end.

(** A command that dies has stored nothing: the shared memory stays as it was and
    the next command starts from it. *)
Fixpoint run_hist (m : mag) (cs : list cmd) : outcome mag :=
  match cs with
  | [] => Ok m
  | c :: rest =>
      match run_cmd m c with
      | Ok (m', _) => run_hist m' rest
      | Die => run_hist m rest
      | UB => UB
      | Fuel => Fuel
      end
  end.

(** Effect of one store on the shared memory. *)
Definition apply_store (m : mag) (s : store) : mag :=
  match s with
  | WLookup c v => mkMag (mM m) (mN m) (zupd (mlookup m) c v) (mperm m) (mactive m)
  | WActive i v => mkMag (mM m) (mN m) (mlookup m) (mperm m) (zupd (mactive m) i v)
  end.

(** A packet handler in another process reads lookup[hash % M] when the shared
    memory is [m1] and active[.] later, when it is [m2] (cmdLb.c:92-97). *)
Definition read2 (m1 m2 : mag) (hash : Z) : outcome Z :=
  do l <- aget (mlookup m1) (hash mod mM m1);
  if l >=? 0 then aget (mactive m2) l else Ok l.

(** All the states the shared memory goes through while the stores [tr] are done. *)
Fixpoint states (m : mag) (tr : list store) : list mag :=
  match tr with
  | [] => [m]
  | s :: rest => m :: states (apply_store m s) rest
  end.
