(** Specification of the fragment table (C13, C23-C25). *)
From Verif Require Import Base Conntrack_Model Conntrack_Spec Frag_Model.

(** ** Executions: any number of threads, any interleaving *)
Inductive exec (g : conf) : world -> list obs -> world -> Prop :=
| ex_nil : forall w, exec g w [] w
| ex_step : forall w tr w1 l ob w2, exec g w tr w1 -> wstep g w1 l = Some (Ok (w2, ob)) -> exec g w (tr ++ ob) w2.

(** The next step is an undefined one: an object is used that was given back. *)
Definition fails (g : conf) (w : world) (l : label) : Prop :=
  exists r, wstep g w l = Some r /\ forall x, r <> Ok x.

(** A sane configuration; clock readings are 64-bit numbers. *)
Definition conf_ok (g : conf) : Prop :=
  0 < g_hsize g < two32 /\ 0 <= g_maxBuckets g < two32 /\ 0 <= g_maxFragments g < two32.

(** ** What a trace says *)
Definition tag (k : ckey) (l : list frag) : list (ckey * frag) := map (pair k) l.
(** Fragments with the key they were stored, handed back or discarded for. *)
Fixpoint stored_tr (tr : list obs) : list (ckey * frag) :=
  match tr with [] => [] | Stored k f :: r => (k, f) :: stored_tr r | _ :: r => stored_tr r end.
Fixpoint handed_tr (tr : list obs) : list (ckey * frag) :=
  match tr with [] => [] | Handed k l :: r => tag k l ++ handed_tr r | _ :: r => handed_tr r end.
Fixpoint discarded_tr (tr : list obs) : list (ckey * frag) :=
  match tr with [] => [] | Discarded k l :: r => tag k l ++ discarded_tr r | _ :: r => discarded_tr r end.

(** ** Who uses an object *)
(** The object a thread holds a reference to (after a successful lookup, or as creator
    until the object is in the table). *)
Definition holds (p : pc) : option Z :=
  match p with
  | PIns _ o | PLost _ o | PFull _ o | PBody _ o | PTaken _ o _ | PCheck _ o | PVal _ o | PItem _ o
  | PPoison _ o | PPoisoned _ o _ | PPut _ o _ | PBack _ o _ _ _ | PUnl _ o _ _ => Some o
  | _ => None
  end.
Definition in_table (w : world) (o : Z) : Prop := In o (stored_data (s_ct (w_sys w))).
Definition in_thread (w : world) (o : Z) : Prop := exists p, In p (w_pcs w) /\ holds p = Some o.
Definition allocated_obj (w : world) (o : Z) : Prop := exists b, In (o, b) (s_objs (w_sys w)).

(** Thread [i] has inserted object [o] in the table and has not yet counted its own reference. *)
Definition window (w : world) (i o : Z) : Prop := exists c, znth (w_pcs w) i = Some (PInc c o).

(** No other thread runs between the two. *)
Inductive prompt_exec (g : conf) : world -> list obs -> world -> Prop :=
| pe_nil : forall w, prompt_exec g w [] w
| pe_step : forall w tr w1 l ob w2, prompt_exec g w tr w1 -> wstep g w1 l = Some (Ok (w2, ob)) ->
    (forall i o, window w1 i o -> exists a, l = LThread i a) -> prompt_exec g w (tr ++ ob) w2.

(** ** Fragments waiting: in the objects, or taken by a thread *)
Definition waiting (s : sys) : list (ckey * frag) :=
  flat_map (fun x => tag (o_key (snd x)) (o_stored (snd x))) (s_objs s).
Definition taken (p : pc) : list (ckey * frag) :=
  match p with
  | PTaken c _ l | PGive c l | PPoisoned c _ l | PDrop c l => tag (c_k c) l
  | _ => []
  end.
(** An allocated item of the fragment pool that is not yet stored. *)
Definition in_hand (p : pc) : Z := match p with PPut _ _ _ | PBack _ _ _ _ _ => 1 | _ => 0 end.
Fixpoint sum (l : list Z) : Z := match l with [] => 0 | x :: r => x + sum r end.
Definition pending (w : world) : list (ckey * frag) := waiting (w_sys w) ++ flat_map taken (w_pcs w).

(** ** One thread at a time: sessions
    A key has at most one session; a session is in one of three states. *)
Inductive sstate := SStoring (l : list (list Z)) | SValid (v : Z) | SPoisoned.
Record session := mkSess { ss : sstate; ss_last : Z }.
Definition smap := ckey -> option session.
Definition sempty : smap := fun _ => None.
Definition sput (m : smap) (k : ckey) (x : session) : smap := fun k' => if list_eq_dec Z.eq_dec k k' then Some x else m k'.
Definition sdel (m : smap) (k : ckey) : smap := fun k' => if list_eq_dec Z.eq_dec k k' then None else m k'.
(** The session of [k] at time [now]; one not used for longer than the lifetime is gone. *)
Definition current (ttl : Z) (m : smap) (now : Z) (k : ckey) : option sstate :=
  match m k with Some x => if now - ss_last x <=? ttl then Some (ss x) else None | None => None end.

(** What a call returns: the code, the value, the fragments re-injected (newest first). *)
Record answer := mkAns { an_rc : Z; an_val : option Z; an_back : list (list Z) }.
Definition refused := mkAns (-1) None [].

(** First fragment with value [v]; [want]: the caller takes the stored fragments back.
    [nobucket]: no overflow bucket is free; [nofrag]: no buffer for a fragment is free. *)
Inductive first_step (nobucket : Prop) (ttl : Z) (m : smap) (now : Z) (k : ckey) (v : Z) (want : bool) : answer -> smap -> Prop :=
| fs_new : current ttl m now k = None ->
    first_step nobucket ttl m now k v want (mkAns 0 None []) (sput m k (mkSess (SValid v) now))
| fs_full : current ttl m now k = None -> nobucket -> first_step nobucket ttl m now k v want refused m
| fs_release : forall l, current ttl m now k = Some (SStoring l) ->
    first_step nobucket ttl m now k v want (mkAns 0 None (if want then l else [])) (sput m k (mkSess (SValid v) now))
| fs_again : forall st, current ttl m now k = Some st -> (forall l, st <> SStoring l) ->
    first_step nobucket ttl m now k v want refused (sput m k (mkSess st now)).

(** The fragments stored for [k] so far. *)
Definition storing (ttl : Z) (m : smap) (now : Z) (k : ckey) (l : list (list Z)) : Prop :=
  current ttl m now k = Some (SStoring l) \/ current ttl m now k = None /\ l = [].

(** Other fragment; [done]: the reassembler has seen the whole datagram. *)
Inductive other_step (nobucket nofrag : Prop) (ttl mtu : Z) (m : smap) (now : Z) (k : ckey) (d : list Z) (done : bool) : answer -> smap -> Prop :=
| os_valid : forall v, current ttl m now k = Some (SValid v) ->
    other_step nobucket nofrag ttl mtu m now k d done (mkAns 0 (Some v) []) (if done then sdel m k else sput m k (mkSess (SValid v) now))
| os_poisoned : current ttl m now k = Some SPoisoned ->
    other_step nobucket nofrag ttl mtu m now k d done refused (sput m k (mkSess SPoisoned now))
| os_store : forall l, storing ttl m now k l -> zlen d <= mtu ->
    other_step nobucket nofrag ttl mtu m now k d done (mkAns 1 None []) (sput m k (mkSess (SStoring (d :: l)) now))
| os_big : forall l, storing ttl m now k l -> mtu < zlen d ->
    other_step nobucket nofrag ttl mtu m now k d done refused (sput m k (mkSess (SStoring l) now))
| os_lost : forall l, storing ttl m now k l -> zlen d <= mtu -> nofrag ->
    other_step nobucket nofrag ttl mtu m now k d done refused (sput m k (mkSess SPoisoned now))
| os_full : current ttl m now k = None -> nobucket -> other_step nobucket nofrag ttl mtu m now k d done refused m.

(** Value wanted, without storing. *)
Inductive get_step (ttl : Z) (m : smap) (now : Z) (k : ckey) : answer -> smap -> Prop :=
| gs_valid : forall v, current ttl m now k = Some (SValid v) ->
    get_step ttl m now k (mkAns 0 (Some v) []) (sput m k (mkSess (SValid v) now))
| gs_other : forall st, current ttl m now k = Some st -> (forall v, st <> SValid v) ->
    get_step ttl m now k refused (sput m k (mkSess st now))
| gs_none : current ttl m now k = None -> get_step ttl m now k refused m.

Definition call_spec (nobucket nofrag : Prop) (ttl mtu : Z) (m : smap) (c : call) (done : bool) : answer -> smap -> Prop :=
  match c with
  | CFirst now k v want => first_step nobucket ttl m now k v want
  | CGet now k => get_step ttl m now k
  | CStore now k d => other_step nobucket nofrag ttl mtu m now k d done
  end.

(** The answer in a trace of one call. *)
Definition rc_of (tr : list obs) : list (Z * option Z) :=
  flat_map (fun o => match o with Returned _ rc v => [(rc, v)] | _ => [] end) tr.
Definition handed_of (tr : list obs) : list (list Z) := map f_data (map snd (handed_tr tr)).

(** Calls one after the other, and the sessions they belong to. *)
Definition no_bucket (g : conf) (s : sys) : Prop := zlen (stored_buckets (s_ct s)) = g_maxBuckets g.
Definition no_frag (g : conf) (s : sys) : Prop := zlen (waiting s) = g_maxFragments g.
Inductive sessions (g : conf) : sys -> smap -> list (call * bool) -> list answer -> sys -> smap -> Prop :=
| se_nil : forall s m, sessions g s m [] [] s m
| se_cons : forall s m c done r ob s1 an m1 ans s2 m2,
    call_op g s c done = Ok (s1, ob) -> rc_of ob = [(an_rc an, an_val an)] -> handed_of ob = an_back an ->
    call_spec (no_bucket g s) (no_frag g s) (g_ttl g) (g_mtu g) m c done an m1 ->
    sessions g s1 m1 r ans s2 m2 -> sessions g s m ((c, done) :: r) (an :: ans) s2 m2.
(** The clock does not run backwards. *)
Fixpoint calls_clock (t0 : Z) (l : list (call * bool)) : Prop :=
  match l with [] => True | (c, _) :: r => t0 <= c_now c < two64 /\ calls_clock (c_now c) r end.
Definition conf_seq (g : conf) : Prop := conf_ok g /\ g_hsize g + g_maxBuckets g < two32.

(** What a call gets for a key whose first fragment was accepted with [v]. *)
Definition expected (v : Z) (c : call) : answer :=
  match c with CFirst _ _ _ _ => refused | _ => mkAns 0 (Some v) [] end.
(** Calls after the first fragment for [k] was accepted with [v], last used at [t0]: every call
    for [k] made no later than [ttl] after the last use gets [v], until the reassembler
    has seen the whole datagram. *)
Fixpoint steered (ttl : Z) (k : ckey) (v t0 : Z) (l : list (call * bool)) (ans : list answer) : Prop :=
  match l, ans with
  | (c, done) :: r, an :: ans =>
      if list_eq_dec Z.eq_dec (c_k c) k
      then c_now c - t0 <= ttl -> an = expected v c /\ (done = false -> steered ttl k v (c_now c) r ans)
      else steered ttl k v t0 r ans
  | _, _ => True
  end.
