(** What a listing of flows should be (C65): JSON, and the flows. *)
From Coq Require Import String Sorted.
From Verif Require Import Base Cstr_Model Rangeset_Model Rangeset_Spec IpKey_Model IpKey_Spec Match_Model Match_Spec
  Flow_Model Flow_Spec Print_Model.

(** ** JSON (RFC 8259): unsigned decimal numbers, strings without escapes,
    arrays and objects *)
Inductive json := JNum (n : Z) | JStr (s : chars) | JArr (l : list json) | JObj (l : list (chars * json)).

Definition ws (s : chars) : Prop := Forall (fun c => c = 32 \/ c = 9 \/ c = 10 \/ c = 13) s.
(** Characters of a string that need no escape *)
Definition clean (s : chars) : Prop := Forall (fun c => 32 <= c < 256 /\ c <> 34 /\ c <> 92) s.

Inductive reads : chars -> json -> Prop :=
| reads_num d n : is_dec d n -> reads d (JNum n)
| reads_str s : clean s -> reads (str """" ++ s ++ str """") (JStr s)
| reads_arr0 w : ws w -> reads (str "[" ++ w ++ str "]") (JArr [])
| reads_arr s l : items s l -> reads (str "[" ++ s ++ str "]") (JArr l)
| reads_obj s l : members s l -> reads (str "{" ++ s ++ str "}") (JObj l)
with items : chars -> list json -> Prop :=
| items_one w s w' v : ws w -> reads s v -> ws w' -> items (w ++ s ++ w') [v]
| items_cons w s w' v t l : ws w -> reads s v -> ws w' -> items t l -> items (w ++ s ++ w' ++ str "," ++ t) (v :: l)
with members : chars -> list (chars * json) -> Prop :=
| members_one w k w1 w2 s w' v : ws w -> clean k -> ws w1 -> ws w2 -> reads s v -> ws w' ->
    members (w ++ str """" ++ k ++ str """" ++ w1 ++ str ":" ++ w2 ++ s ++ w') [(k, v)]
| members_cons w k w1 w2 s w' v t l : ws w -> clean k -> ws w1 -> ws w2 -> reads s v -> ws w' -> members t l ->
    members (w ++ str """" ++ k ++ str """" ++ w1 ++ str ":" ++ w2 ++ s ++ w' ++ str "," ++ t) ((k, v) :: l).

(** A JSON text: a value with blanks around it *)
Definition json_text (s : chars) (v : json) : Prop :=
  exists w t w', s = w ++ t ++ w' /\ ws w /\ ws w' /\ reads t v.

(** ** Objects *)

Definition strings (l : list chars) : json := JArr (map JStr l).
Definition member {A} (k : string) (o : option A) (f : A -> json) : list (chars * json) :=
  match o with None => [] | Some a => [(str k, f a)] end.

(** The object v shows the definition a, with n packets and the target t.
    Ports are shown one by one. *)
Definition shows (v : json) (a : fargs) (n : Z) (t : option chars) : Prop :=
  exists dp sp, a_dports a = option_map commas dp /\ a_sports a = option_map commas sp /\
    v = JObj ([(str "name", JStr (a_name a)); (str "priority", JNum (a_priority a))] ++
              member "protocols" (a_protocols a) strings ++
              member "dests" (a_dsts a) strings ++ member "dports" dp strings ++
              member "srcs" (a_srcs a) strings ++ member "sports" sp strings ++
              member "match" (a_match a) strings ++
              (if a_udpencap a =? 0 then [] else [(str "udpencap", JNum (a_udpencap a))]) ++
              [(str "matches_count", JNum n)] ++ member "user_ref" t JStr).

(** Both definitions are accepted and match the same packets, with the same
    name, priority, target and udpencap. *)
Definition equivalent (L : libc) (a b : fargs) : Prop :=
  a_name a = a_name b /\ a_priority a = a_priority b /\ a_ref a = a_ref b /\ a_udpencap a = a_udpencap b /\
  exists s t, flowDefine L [] a = Ok (None, s) /\ flowDefine L [] b = Ok (None, t) /\
    forall ping k eth pkt u, flowLookup ping s k eth pkt u = flowLookup ping t k eth pkt u.

(** The objects show the definitions in force, one each, those with higher
    priority first. *)
Definition listing (L : libc) (target : Z -> option chars) (now : chars -> option fargs) (vs : list json) : Prop :=
  exists shown, Forall2 (fun v a => exists n, shows v a n (target (a_ref a))) vs shown /\
    NoDup (map a_name shown) /\ StronglySorted (fun a b => a_priority b <= a_priority a) shown /\
    (forall n a, now n = Some a -> exists b, In b shown /\ equivalent L a b) /\
    (forall b, In b shown -> exists a, now (a_name b) = Some a /\ equivalent L a b).

(** ** What is assumed *)

(** inet_ntop gives an address inet_pton takes, with colons; the buffer has
    1024 bytes; match_count is an unsigned. *)
Definition ntop_ok (L : libc) (P : printer) : Prop :=
  (forall b, bytes 16 b -> pton L (ntop P b) = Some b /\ In 58 (ntop P b) /\ ~ In 47 (ntop P b) /\
     clean (ntop P b) /\ zlen (ntop P b) < 46) /\
  zlen (printbuf P) = 1024 /\ (forall f, is_u32 (counts P f)).

(** C types: int, unsigned short *)
Definition typed (a : fargs) : Prop := is_int (a_priority a) /\ 0 <= a_udpencap a < 65536.

(** Definitions that are shown as they are: names without quotes, no
    negative priority, not an empty list of protocols, port texts below 1023
    characters, at most 31 expressions. *)
Definition listable (a : fargs) : Prop :=
  clean (a_name a) /\ 0 <= a_priority a /\ a_protocols a <> Some [] /\
  all_or (a_dports a) (fun s => zlen s < 1023) /\ all_or (a_sports a) (fun s => zlen s < 1023) /\
  all_or (a_match a) (fun l => zlen l <= 31).

(** Target names without quotes *)
Definition target (P : printer) (r : Z) : option chars := option_map (fun g => g r) (refname P).
Definition clean_targets (P : printer) : Prop := forall r t, target P r = Some t -> clean t.

(** The byte matches of a definition do not wrap around (C39). *)
Definition no_wraps (a : fargs) : Prop :=
  all_or (a_match a) (Forall (fun s => forall i, matchParse s = Ok (inr i) -> no_wrap i)).

(** The definition a is accepted, and listed as v. *)
Definition shown_as (L : libc) (P : printer) (a : fargs) (v : json) : Prop :=
  exists set s, run L [] [Define a] = Ok (set, [Defined None]) /\
    flowSetPrint P set (Some (a_name a)) = Ok s /\ json_text s v.
