(** What lines of init, activate, deactivate, delete and show should do to the
    tables of a host, and what load-balancers that use the tables should see
    (C76). *)
From Coq Require Import String Znumtheory.
From Verif Require Import Base Cstr_Model Rangeset_Model Rangeset_Spec Maglev_Model Config_Model Maglev_Spec Opt_Model Opt_Spec Start_Spec Shm_Model Shm_Spec Lines_Model.

(** The text shm names the object x: slashes in front of it do not count. *)
Definition object (shm x : chars) : Prop := exists k, shm = repeat 47 k ++ x /\ x <> [] /\ ~ In 47 x /\ zlen x <= 253.

(** ** What a line asks for *)
Inductive request := RInit (x : chars) (own m n : Z) | RCmd (x : chars) (c : cmd) | RDelete (x : chars) | RShow (shm x : chars).
Definition table_named (opts : list opt) (its : list item) (x : chars) : Prop :=
  Forall (item_ok opts) its /\ exists shm, value_of opts its "shm" (Some shm) /\ object shm x.
Definition index_given (its : list item) (i : Z) : Prop := number configOpts its "index" i.
Definition no_index (its : list item) : Prop := value_of configOpts its "index" None.
Inductive asks : list chars -> request -> Prop :=
| a_init its tail x own m n : table_named initOpts its x ->
    number initOpts its "ownfw" own -> number initOpts its "M" m -> number initOpts its "N" n -> 0 <= m -> 0 <= n ->
    asks (str "init" :: line its tail) (RInit x own m n)
| a_activate its tail x fws : table_named configOpts its x -> no_index its -> Forall2 is_num (rest_words its tail) fws ->
    asks (str "activate" :: line its tail) (RCmd x (Activate fws))
| a_activate_at its tail x i w fw : table_named configOpts its x -> index_given its i -> rest_words its tail = [w] -> is_num w fw ->
    asks (str "activate" :: line its tail) (RCmd x (ActivateIdx i fw))
| a_deactivate its tail x fws : table_named configOpts its x -> no_index its -> Forall2 is_num (rest_words its tail) fws ->
    asks (str "deactivate" :: line its tail) (RCmd x (Deactivate fws))
| a_deactivate_at its tail x i : table_named configOpts its x -> index_given its i ->
    asks (str "deactivate" :: line its tail) (RCmd x (DeactivateIdx i))
| a_delete its tail x : table_named deleteOpts its x -> asks (str "delete" :: line its tail) (RDelete x)
| a_show its tail shm x : Forall (item_ok showOpts) its -> value_of showOpts its "shm" (Some shm) -> object shm x ->
    asks (str "show" :: line its tail) (RShow shm x).

(** ** What should happen *)
(** A table: what init was asked for, and the commands since *)
Record made := mkMade { d_own : Z; d_m : Z; d_n : Z; d_rand : nat -> Z; d_cmds : list cmd }.
Definition table_of (t : made) (s : mag) : Prop := reached (d_m t) (d_n t) (d_rand t) (d_cmds t) s.
(** A process has no table; has the one of object x; has a table that was deleted;
    has one that was made anew under its feet (see C71_init_in_use_refuted). *)
Inductive reader := Nobody | Live (x : chars) | Kept (t : made) | Lost.
Record world := mkW { w_tab : chars -> option made; w_read : Z -> reader }.
Definition start : world := mkW (fun _ => None) (fun _ => Nobody).

Definition at_name {A} (f : chars -> A) (x : chars) (a : A) : chars -> A := fun y => if streq y x then a else f y.
Definition at_proc {A} (f : Z -> A) (k : Z) (a : A) : Z -> A := fun j => if j =? k then a else f j.
Definition becomes (x : chars) (r' : reader) (r : reader) : reader := match r with Live y => if streq y x then r' else r | _ => r end.

(** M is the largest prime not above m (at least 3). *)
Definition size_of (m p : Z) : Prop := prime p /\ p <= Z.max m 3 /\ forall q, prime q -> q <= Z.max m 3 -> q <= p.
(** The table is not too large (C06, C71), there is memory, write does not fail. *)
Definition bytes (p n : Z) : Z := 28 + 4 * (p * n) + 4 * (p + n).
Definition fits (e : ienv) (p n : Z) : Prop :=
  p <= 65536 /\ bytes p n < 2 ^ 31 /\ bytes p n <= 4 + zlen (ie_garbage e) /\ writes (ie_writes e) (bytes p n) /\
  forall k, 0 <= ie_rand e k < 2 ^ 31.
Definition adjust_text (m p : Z) : chars := if m =? p then [] else str "M adjusted; " ++ dec m ++ str " -> " ++ dec p ++ [10].

(** The index of a command, if it has one, is below N. *)
Definition index_ok (n : Z) (c : cmd) : Prop :=
  match c with ActivateIdx i _ | DeactivateIdx i => 0 <= i < n | _ => True end.

(** The fwmark for a hash: that of the target in the slot, negative if there is none *)
Definition target (s : mag) (hash x : Z) : Prop :=
  exists l, znth (mlookup s) (hash mod mM s) = Some l /\ ((l < 0 /\ x = l) \/ (0 <= l /\ znth (mactive s) l = Some x)).

Inductive wevent := VLine (e : ienv) (r : request) | VMap (k : Z) (x : chars) | VLook (k hash : Z).
Inductive happens : world -> wevent -> world -> hobs -> Prop :=
| h_init w e x own m n p : size_of m p -> n <= p -> fits e p n ->
    happens w (VLine e (RInit x own m n))
      (mkW (at_name (w_tab w) x (Some (mkMade own m n (ie_rand e) []))) (fun k => becomes x Lost (w_read w k))) (OLine 0 (adjust_text m p))
| h_init_no w e x own m n p : size_of m p -> p < n -> p <= 65536 ->
    happens w (VLine e (RInit x own m n)) w (OLine 1 (adjust_text m p))
| h_cmd w e x c t : w_tab w x = Some t -> index_ok (d_n t) c ->
    happens w (VLine e (RCmd x c)) (mkW (at_name (w_tab w) x (Some (mkMade (d_own t) (d_m t) (d_n t) (d_rand t) (d_cmds t ++ [c])))) (w_read w)) (OLine 0 [])
| h_cmd_index w e x c t : w_tab w x = Some t -> ~ index_ok (d_n t) c ->
    happens w (VLine e (RCmd x c)) w (OLine 1 [])
| h_cmd_none w e x c : w_tab w x = None -> happens w (VLine e (RCmd x c)) w (OLine 1 [])
| h_delete w e x t : w_tab w x = Some t ->
    happens w (VLine e (RDelete x)) (mkW (at_name (w_tab w) x None) (fun k => becomes x (Kept t) (w_read w k))) (OLine 0 [])
| h_delete_none w e x : w_tab w x = None -> happens w (VLine e (RDelete x)) w (OLine 0 [])
| h_show w e shm x t s : w_tab w x = Some t -> table_of t s ->
    happens w (VLine e (RShow shm x)) w (OLine 0 (show_text shm (d_own t) (mM s) (d_n t) (firstn 25 (mlookup s)) (actives (mactive s) 0)))
| h_show_none w e shm x : w_tab w x = None -> happens w (VLine e (RShow shm x)) w (OLine 1 [])
| h_map w k x t : w_tab w x = Some t -> happens w (VMap k x) (mkW (w_tab w) (at_proc (w_read w) k (Live x))) (OMap true)
| h_map_none w k x : w_tab w x = None -> happens w (VMap k x) (mkW (w_tab w) (at_proc (w_read w) k Nobody)) (OMap false)
| h_look w k hash x t s v : w_read w k = Live x -> w_tab w x = Some t -> table_of t s -> 0 <= hash -> target s hash v ->
    happens w (VLook k hash) w (OLook (Some v))
| h_look_kept w k hash t s v : w_read w k = Kept t -> table_of t s -> 0 <= hash -> target s hash v ->
    happens w (VLook k hash) w (OLook (Some v))
| h_look_none w k hash : w_read w k = Nobody -> happens w (VLook k hash) w (OLook None).
Inductive happen : world -> list wevent -> world -> list hobs -> Prop :=
| hs_nil w : happen w [] w []
| hs_cons w v w1 o vs w2 os : happens w v w1 o -> happen w1 vs w2 os -> happen w (v :: vs) w2 (o :: os).

(** The event is one of the program. *)
Definition is_event (a : hevent) (v : wevent) : Prop :=
  match a, v with
  | ELine e l, VLine e' r => e = e' /\ asks l r
  | EMap k shm, VMap k' x => k = k' /\ object shm x
  | ELook k h, VLook k' h' => k = k' /\ h = h'
  | _, _ => False
  end.
(** Tables asked for are not too large, hashes are unsigned, and no process looks up
    in a table that was made anew. *)
Definition sound (w : world) (v : wevent) : Prop :=
  match v with
  | VLine e (RInit x own m n) => exists p, size_of m p /\ p <= 65536 /\ (n <= p -> fits e p n)
  | VLook k hash => 0 <= hash /\ w_read w k <> Lost
  | _ => True
  end.
