(** Specification of the connection table (C19-C22): a finite map with time-to-live. *)
From Verif Require Import Base Conntrack_Model.

Record ent := mkEnt { e_data : Z; e_last : Z; e_ttl : Z }.
Definition cmap := ckey -> option ent.
Definition empty : cmap := fun _ => None.
Definition put (m : cmap) (k : ckey) (e : ent) : cmap :=
  fun k' => if list_eq_dec Z.eq_dec k k' then Some e else m k'.
Definition del (m : cmap) (k : ckey) : cmap :=
  fun k' => if list_eq_dec Z.eq_dec k k' then None else m k'.
(** The entry was referenced no more than its time-to-live ago. *)
Definition live (m : cmap) (now : Z) (k : ckey) (e : ent) : Prop := m k = Some e /\ now - e_last e <= e_ttl e.
Definition absent (m : cmap) (now : Z) (k : ckey) : Prop := forall e, ~ live m now k e.

(** One call and its result. *)
Inductive spec_step (m : cmap) : cop -> Z -> cmap -> Prop :=
| sp_hit : forall now k e, live m now k e ->
    spec_step m (OLookup now k) (e_data e) (put m k (mkEnt (e_data e) now (e_ttl e)))
| sp_miss : forall now k, absent m now k -> spec_step m (OLookup now k) 0 m
| sp_null : forall now k ttl al, spec_step m (OInsert now k ttl 0 al) (-1) m
| sp_busy : forall now k ttl d al e, d <> 0 -> live m now k e ->
    spec_step m (OInsert now k ttl d al) 1 (put m k (mkEnt (e_data e) now (e_ttl e)))
| sp_ins : forall now k ttl d al, d <> 0 -> absent m now k ->
    spec_step m (OInsert now k ttl d al) 0 (put m k (mkEnt d now ttl))
| sp_full : forall now k ttl d, d <> 0 -> absent m now k ->
    spec_step m (OInsert now k ttl d None) (-1) m
| sp_remove : forall now k, spec_step m (ORemove now k) 0 (del m k)
| sp_stats : forall now ks, NoDup ks -> (forall k, In k ks <-> exists e, live m now k e) ->
    spec_step m (OStats now) (u32 (zlen ks)) m.

Inductive spec_run : cmap -> list cop -> list Z -> cmap -> Prop :=
| sr_nil : forall m, spec_run m [] [] m
| sr_cons : forall m o v m1 os vs m2, spec_step m o v m1 -> spec_run m1 os vs m2 ->
    spec_run m (o :: os) (v :: vs) m2.

Definition op_now (o : cop) : Z :=
  match o with OLookup n _ | OInsert n _ _ _ _ | ORemove n _ | OStats n => n end.
Definition op_key (o : cop) : option ckey :=
  match o with OLookup _ k | OInsert _ k _ _ _ | ORemove _ k => Some k | OStats _ => None end.

(** The clock readings of the calls do not decrease and are 64-bit numbers; so are the
    time-to-lives. *)
Fixpoint clock_from (t0 : Z) (l : list cop) : Prop :=
  match l with
  | [] => True
  | o :: r => t0 <= op_now o < two64 /\ clock_from (op_now o) r
  end.
Definition ttls_ok (l : list cop) : Prop :=
  forall now k ttl d al, In (OInsert now k ttl d al) l -> 0 <= ttl < two64.

(** The data of the successful inserts, in order. *)
Fixpoint inserted (ops : list cop) (vs : list Z) : list Z :=
  match ops, vs with
  | OInsert _ _ _ d _ :: ops, v :: vs => if v =? 0 then d :: inserted ops vs else inserted ops vs
  | _ :: ops, _ :: vs => inserted ops vs
  | _, _ => []
  end.
Fixpoint freed_data (ev : list event) : list Z :=
  match ev with [] => [] | FreeData d :: r => d :: freed_data r | _ :: r => freed_data r end.
Fixpoint freed_buckets (ev : list event) : list Z :=
  match ev with [] => [] | FreeBucket m :: r => m :: freed_buckets r | _ :: r => freed_buckets r end.
Fixpoint allocated (ev : list event) : list Z :=
  match ev with [] => [] | AllocBucket (Some m) :: r => m :: allocated r | _ :: r => allocated r end.

(** What is stored: the data of the occupied buckets, and the overflow buckets. *)
Definition bucket_data (b : bucket) : list Z :=
  filter (fun d => negb (d =? 0)) (map c_data (b_main b :: b_chain b)).
Definition stored_data (t : ct) : list Z := flat_map bucket_data (t_buckets t).
Definition stored_buckets (t : ct) : list Z := flat_map (fun b => map c_mem (b_chain b)) (t_buckets t).

(** [c] is an entry of the table. *)
Definition entry (t : ct) (c : cent) : Prop :=
  exists i b, znth (t_buckets t) i = Some b /\ (c = b_main b \/ In c (b_chain b)) /\ c_data c <> 0.
