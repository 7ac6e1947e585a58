(** What loglevel and trace should do to the load-balancers of a host (C81). *)
From Coq Require Import String.
From Verif Require Import Base Cstr_Model Rangeset_Model Ctl_Model.

(** ** Executions, each event allowed by the policy *)
Inductive cexecBy (ok : cworld -> clabel -> Prop) : cworld -> list cobs -> cworld -> Prop :=
| cx_nil : forall w, cexecBy ok w [] w
| cx_step : forall w tr w1 l w2 ob, cexecBy ok w tr w1 -> ok w1 l -> cstep w1 l = Some (w2, ob) -> cexecBy ok w (tr ++ ob) w2.
Definition anything (w : cworld) (l : clabel) : Prop := True.

(** A process is in logConfigShm. *)
Definition starting (w : cworld) (k : Z) : Prop :=
  match c_procs w k with Open1 _ | Stat1 _ | Create _ | Write _ | Open2 _ | Stat2 _ => True | _ => False end.
(** ... and found that it has to make the object. *)
Definition making (w : cworld) (k : Z) : Prop :=
  match c_procs w k with Create _ | Write _ => True | _ => False end.
(** No process is started while another one is starting. *)
Definition one_at_a_time (w : cworld) (l : clabel) : Prop :=
  match l with
  | LLb _ | LLevel _ _ | LTrace _ _ => forall i, ~ starting w i
  | _ => True
  end.

(** ** The configuration as two registers *)
Definition level_after (d : Z) (tr : list cobs) : Z :=
  fold_left (fun x o => match o with SetsLevel _ v => v | _ => x end) tr d.
Definition mask_after (d : Z) (tr : list cobs) : Z :=
  fold_left (fun x o => match o with SetsMask _ v => v | _ => x end) tr d.
(** No process crashes, and what load-balancers use is what was set last. *)
Definition registers (level mask : Z) (tr : list cobs) : Prop :=
  (forall k, ~ In (Crashes k) tr) /\
  (forall t1 k v t2, tr = t1 ++ SeesLevel k v :: t2 -> v = level_after level t1) /\
  (forall t1 k v t2, tr = t1 ++ SeesMask k v :: t2 -> v = mask_after mask t1).

(** Events without anything in between *)
Fixpoint crun (w : cworld) (ls : list clabel) : option (cworld * list cobs) :=
  match ls with
  | [] => Some (w, [])
  | l :: r => match cstep w l with
              | Some (w1, ob) => match crun w1 r with Some (w2, obs) => Some (w2, ob ++ obs) | None => None end
              | None => None
              end
  end.

