(** What the fragment table with a reassembler should do (C80). *)
From Verif Require Import Base Conntrack_Model Conntrack_Spec Reasm_Model Reasm_Spec Frag_Model Frag_Spec Asm_Model.

(** ** Executions: any number of threads, any interleaving *)
Inductive aexec (g : conf) : aworld -> list obs -> aworld -> Prop :=
| ax_nil : forall w, aexec g w [] w
| ax_step : forall w tr w1 l ob w2, aexec g w tr w1 -> awstep g w1 l = Some (Ok (w2, ob)) -> aexec g w (tr ++ ob) w2.
(** The world without the trackers *)
Definition plain (w : aworld) : world := mkWorld (a_sys (aw_sys w)) (map fst (aw_pcs w)).

(** The items that the trackers use, a head and the holes each *)
Definition items (x : asys) : Z := sum (map (fun y => 1 + zlen (t_holes (snd y))) (a_trk x)).
Definition has_tracker (w : aworld) (o : Z) : Prop := exists t, In (o, t) (a_trk (aw_sys w)).
(** Stored, but not yet counted *)
Definition uncounted (p : pc * list Z) : Z := match fst p with PUnl _ _ 1 _ => 1 | _ => 0 end.

(** ** One thread at a time
    Beside the sessions of Frag_Spec: the fragments of a session the
    reassembler has seen, if it watches it. *)
Definition amap := ckey -> option (list Reasm_Spec.frag).
Definition aempty : amap := fun _ => None.
Definition aput (m : amap) (k : ckey) (x : option (list Reasm_Spec.frag)) : amap :=
  fun k' => if list_eq_dec Z.eq_dec k k' then x else m k'.

(** The packet is a further fragment of the datagram, and leaves no bytes missing on both of its sides. *)
Definition fits (fs : list Reasm_Spec.frag) (d : list Z) : Prop :=
  exists n f, n <= UINT_MAX /\ frag_packet d f /\ Forall (of_datagram n) (fs ++ [f]) /\ no_splits (fs ++ [f]).
(** [d]: the packet of the call *)
Definition orderly (ttl : Z) (m : smap) (am : amap) (c : call) (d : list Z) : Prop :=
  match c with
  | CGet _ _ => True
  | CFirst now k _ _ =>
      match current ttl m now k, am k with
      | None, _ => fits [] d
      | Some _, Some fs => fits fs d
      | Some _, None => True
      end
  | CStore now k d' =>
      match current ttl m now k, am k with
      | Some (SValid _), Some fs => fits fs d'
      | _, _ => True
      end
  end.

(** What the reassembler sees and says; [noitems]: fewer than two items of the reassembler are free. *)
Inductive watch (noitems : Prop) (ttl : Z) (m : smap) (am : amap) : call -> list Z -> bool -> amap -> Prop :=
| wa_get now k d : watch noitems ttl m am (CGet now k) d false am
| wa_new now k v want d f : current ttl m now k = None -> frag_packet d f ->
    watch noitems ttl m am (CFirst now k v want) d false (aput am k (Some [f]))
| wa_new_not now k v want d : current ttl m now k = None -> noitems ->
    watch noitems ttl m am (CFirst now k v want) d false (aput am k None)
| wa_again now k v want d st fs f : current ttl m now k = Some st -> am k = Some fs -> frag_packet d f ->
    watch noitems ttl m am (CFirst now k v want) d false (aput am k (Some (fs ++ [f])))
| wa_again_not now k v want d st : current ttl m now k = Some st -> am k = None ->
    watch noitems ttl m am (CFirst now k v want) d false am
| wa_more now k d x v fs f done : current ttl m now k = Some (SValid v) -> am k = Some fs -> frag_packet d f ->
    (done = true <-> complete (fs ++ [f])) ->
    watch noitems ttl m am (CStore now k d) x done (aput am k (Some (fs ++ [f])))
| wa_more_not now k d x v : current ttl m now k = Some (SValid v) -> am k = None ->
    watch noitems ttl m am (CStore now k d) x false am
| wa_store now k d x : (forall v, current ttl m now k <> Some (SValid v)) ->
    watch noitems ttl m am (CStore now k d) x false (aput am k None).

(** Calls with their packets, one after the other, each orderly *)
Inductive served (g : conf) : asys -> smap -> amap -> list (call * list Z) -> list answer -> asys -> smap -> amap -> Prop :=
| sv_nil : forall x m am, served g x m am [] [] x m am
| sv_cons : forall x m am c d done r x1 ob an m1 am1 ans x2 m2 am2,
    orderly (g_ttl g) m am c d ->
    acall g x c d = Ok (x1, ob) -> rc_of ob = [(an_rc an, an_val an)] -> handed_of ob = an_back an ->
    call_spec (no_bucket g (a_sys x)) (no_frag g (a_sys x)) (g_ttl g) (g_mtu g) m c done an m1 ->
    watch (zlen (a_pool x) < 2) (g_ttl g) m am c d done am1 ->
    served g x1 m1 am1 r ans x2 m2 am2 ->
    served g x m am ((c, d) :: r) (an :: ans) x2 m2 am2.

Fixpoint clock (t0 : Z) (l : list (call * list Z)) : Prop :=
  match l with [] => True | (c, _) :: r => t0 <= c_now c < two64 /\ clock (c_now c) r end.

(** The next call for [k] finds no session. *)
Definition as_new (c : call) (an : answer) : Prop :=
  an_val an = None /\ an_back an = [] /\
  match c with CFirst _ _ _ _ => an_rc an = 0 \/ an_rc an = -1 | CGet _ _ => an_rc an = -1 | CStore _ _ _ => an_rc an = 1 \/ an_rc an = -1 end.
Fixpoint anew (k : ckey) (l : list (call * list Z)) (ans : list answer) : Prop :=
  match l, ans with
  | (c, _) :: r, an :: ans => if list_eq_dec Z.eq_dec (c_k c) k then as_new c an else anew k r ans
  | _, _ => True
  end.
(** The first fragment of [k] was accepted with [v], the reassembler has seen [fs], the
    last use was at [t0]: every call within the lifetime gets [v] until the datagram
    is complete, and then the session is over. *)
Fixpoint watched (ttl : Z) (k : ckey) (v t0 : Z) (fs : list Reasm_Spec.frag) (l : list (call * list Z)) (ans : list answer) : Prop :=
  match l, ans with
  | (c, d) :: r, an :: ans =>
      if list_eq_dec Z.eq_dec (c_k c) k
      then c_now c - t0 <= ttl -> an = expected v c /\
             match c with
             | CGet _ _ => watched ttl k v (c_now c) fs r ans
             | CFirst _ _ _ _ => exists f, frag_packet d f /\ watched ttl k v (c_now c) (fs ++ [f]) r ans
             | CStore _ _ d => exists f, frag_packet d f /\
                 (complete (fs ++ [f]) -> anew k r ans) /\
                 (~ complete (fs ++ [f]) -> watched ttl k v (c_now c) (fs ++ [f]) r ans)
             end
      else watched ttl k v t0 fs r ans
  | _, _ => True
  end.

(** ** The counter of complete datagrams (C73)
    Served calls with the number of those with which a watched datagram became complete *)
Inductive completes (g : conf) : asys -> smap -> amap -> list (call * list Z) -> list answer -> asys -> smap -> amap -> Z -> Prop :=
| cp_nil : forall x m am, completes g x m am [] [] x m am 0
| cp_cons : forall x m am c d done r x1 ob an m1 am1 ans x2 m2 am2 n,
    orderly (g_ttl g) m am c d ->
    acall g x c d = Ok (x1, ob) -> rc_of ob = [(an_rc an, an_val an)] -> handed_of ob = an_back an ->
    call_spec (no_bucket g (a_sys x)) (no_frag g (a_sys x)) (g_ttl g) (g_mtu g) m c done an m1 ->
    watch (zlen (a_pool x) < 2) (g_ttl g) m am c d done am1 ->
    completes g x1 m1 am1 r ans x2 m2 am2 n ->
    completes g x m am ((c, d) :: r) (an :: ans) x2 m2 am2 (n + if done then 1 else 0).

(** ** Any number of threads, the fragments of each datagram in an order without gaps
    The object and the packet a step hands to the reassembler, if it watches the object *)
Definition inspected (w : aworld) (l : alabel) : option (Z * list Z) :=
  match l with
  | AStats _ _ => None
  | AThread i _ _ _ =>
      match znth (aw_pcs w) i with
      | Some (PBody c o, d) =>
          match tget (a_trk (aw_sys w)) o, oget (s_objs (a_sys (aw_sys w))) o with
          | Some _, Some b =>
              match c with
              | CGet _ _ => None
              | CFirst _ _ _ _ => Some (o, d)
              | CStore _ _ d' => match o_state b with Valid => Some (o, d') | _ => None end
              end
          | _, _ => None
          end
      | _ => None
      end
  end.
(** It is not the first fragment, after which the datagram is never looked at as a whole. *)
Definition may_end (w : aworld) (l : alabel) : Prop :=
  match l with
  | AStats _ _ => False
  | AThread i _ _ _ => exists now k d o x, znth (aw_pcs w) i = Some (PBody (CStore now k d) o, x)
  end.
(** The fragments the reassembler was handed for an object, out of all of them *)
Definition history := list (Z * Reasm_Spec.frag).
Definition of_obj (h : history) (o : Z) : list Reasm_Spec.frag := map snd (filter (fun x => fst x =? o) h).
Definition in_order (h : history) (w : aworld) (l : alabel) : Prop :=
  match inspected w l with Some (o, d) => fits (of_obj h o) d | None => True end.
(** Executions with what was handed to the reassembler, and the number of fragments (but first ones)
    with which what it had seen of the datagram was complete *)
Inductive oexec (g : conf) : aworld -> list obs -> history -> Z -> aworld -> Prop :=
| ox_nil : forall w, oexec g w [] [] 0 w
| ox_step : forall w tr h n w1 l ob w2, oexec g w tr h n w1 -> awstep g w1 l = Some (Ok (w2, ob)) ->
    inspected w1 l = None -> oexec g w (tr ++ ob) h n w2
| ox_more : forall w tr h n w1 l ob w2 o d f, oexec g w tr h n w1 -> awstep g w1 l = Some (Ok (w2, ob)) ->
    inspected w1 l = Some (o, d) -> frag_packet d f -> fits (of_obj h o) d ->
    ~ (may_end w1 l /\ complete (of_obj h o ++ [f])) -> oexec g w (tr ++ ob) (h ++ [(o, f)]) n w2
| ox_last : forall w tr h n w1 l ob w2 o d f, oexec g w tr h n w1 -> awstep g w1 l = Some (Ok (w2, ob)) ->
    inspected w1 l = Some (o, d) -> frag_packet d f -> fits (of_obj h o) d ->
    may_end w1 l -> complete (of_obj h o ++ [f]) -> oexec g w (tr ++ ob) (h ++ [(o, f)]) (n + 1) w2.
(** Whenever it is looked up: the key is not in the table. *)
Definition key_free (w : aworld) (k : ckey) : Prop :=
  forall now, exists t ev, ctLookup (s_ct (a_sys (aw_sys w))) now k = Ok (t, 0, ev).
