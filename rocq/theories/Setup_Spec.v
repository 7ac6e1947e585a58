(** Who serves a queue (C84). *)
From Coq Require Import String.
From Verif Require Import Base Cstr_Model Rangeset_Spec Opt_Model Start_Spec Setup_Model.

(** Executions with the labels in [ok], and what is seen; runs *)
Notation handling := (Z -> Z -> Z -> list Z -> Z).
Inductive kexec (handle : handling) (ok : klabel -> Prop) : list kobs -> kworld -> Prop :=
| kx_nil : kexec handle ok [] kstart
| kx_step : forall os w l w' ob, kexec handle ok os w -> ok l -> kstep handle w l = Some (w', ob) -> kexec handle ok (os ++ ob) w'.
Fixpoint krun (handle : handling) (w : kworld) (ls : list klabel) : option (kworld * list kobs) :=
  match ls with
  | [] => Some (w, [])
  | l :: r => match kstep handle w l with
              | Some (w1, ob) => match krun handle w1 r with Some (w2, obs) => Some (w2, ob ++ obs) | None => None end
              | None => None
              end
  end.

(** The lines are as a user would write them, and a message about a packet has at
    most half a page besides the packet. *)
Definition sane (l : klabel) : Prop :=
  match l with
  | KStart _ s qlen mtu => (exists a b, queue_text s a b) /\ 0 <= qlen < 2 ^ 32 /\ 576 <= mtu < 2 ^ 31
  | KPacket _ h _ => 0 <= h <= 2048
  | _ => True
  end.
(** Nobody kills process p, and its messages are sent. *)
Definition spares (p : Z) (l : klabel) : Prop := match l with KKill i | KFails i _ => i <> p | _ => True end.

(** Process p runs with these options. *)
Definition runs (os : list kobs) (p : Z) (s : chars) (qlen mtu : Z) : Prop :=
  exists o1 o2, os = o1 ++ Started p s qlen mtu :: o2 /\ ~ In (Ended p) o2.
(** t is one of the queues of the text. *)
Definition listed (s : chars) (t : Z) : Prop := exists a b, queue_text s a b /\ a <= t <= b.
(** Queue numbers have 16 bits. *)
Definition number16 (t : Z) : Z := t mod 65536.

(** No two load-balancers, and no two threads of one, have the same queue. *)
Definition apart (os : list kobs) : Prop :=
  forall p s qlen mtu p' s' qlen' mtu' t t',
  In (Started p s qlen mtu) os -> In (Started p' s' qlen' mtu') os -> listed s t -> listed s' t' ->
  number16 t = number16 t' -> p = p' /\ t = t'.

(** A packet that waits for the verdict of p since it runs *)
Definition verdict_on (id : Z) (o : kobs) : Prop := match o with Verdict _ _ _ i _ _ _ => i = id | _ => False end.
Definition waits (os : list kobs) (p q id : Z) (pk : packet) : Prop :=
  exists s qlen mtu o1 o2 o3, os = o1 ++ Started p s qlen mtu :: o2 ++ Queued q id pk :: o3 /\ ~ In (Ended p) o2 /\ ~ In (Ended p) o3 /\
    forall o, In o o3 -> ~ verdict_on id o.
(** What the handler gets of a packet, and the verdict *)
Definition copied (mtu : Z) (pk : packet) : list Z := firstn (Z.to_nat (Z.min mtu 65531)) (k_data pk).
Definition result (fw : Z) : option Z := if 0 <=? fw then Some fw else None.
(** Process p gave a verdict as thread t, and has not ended since. *)
Definition worked (os : list kobs) (p t : Z) : Prop :=
  exists o1 o2 q id proto data v, os = o1 ++ Verdict p t q id proto data v :: o2 /\ ~ In (Ended p) o2.
