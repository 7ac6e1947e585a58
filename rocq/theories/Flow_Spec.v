(** What flows mean (C33-C37, C41): the texts of a definition, the packets a
    flow accepts, and what a history of definitions leaves. *)
From Coq Require Import String Permutation Sorted.
From Verif Require Import Base Cstr_Model Util_Spec Rangeset_Model Rangeset_Spec
  IpKey_Model IpKey_Spec Match_Model Match_Spec Flow_Model.

(** ** Prefixes *)

(** a and b, of w bits, agree in their first p bits. *)
Definition same_prefix (w p : Z) (a b : list Z) : Prop :=
  network a / 2 ^ (w - p) = network b / 2 ^ (w - p).

(** a.b.c.d *)
Definition is_quad (s : chars) (q : list Z) : Prop :=
  exists a b c d x y z w,
    q = [x; y; z; w] /\ s = a ++ str "." ++ b ++ str "." ++ c ++ str "." ++ d /\
    is_dec a x /\ is_dec b y /\ is_dec c z /\ is_dec d w /\
    x < 256 /\ y < 256 /\ z < 256 /\ w < 256.

(** IPv4 or IPv6 prefixes *)
Inductive prefix := V4 (q : list Z) (p : Z) | V6 (a : list Z) (p : Z).

(** The addresses of a prefix; IPv4 addresses are the mapped ones. *)
Definition in_cidr (c : prefix) (adr : list Z) : Prop :=
  match c with
  | V4 q p => exists a, bytes 4 a /\ adr = mapped a /\ same_prefix 32 p a q
  | V6 a p => same_prefix 128 p adr a
  end.

(** The length in IPv6 notation, as CIDRs are printed *)
Definition shown (c : prefix) : Z := match c with V4 _ p => 96 + p | V6 _ p => p end.

(** "address/length" *)
Definition cidr_text (L : libc) (s : chars) (c : prefix) : Prop :=
  match c with
  | V4 q p => exists a d, s = a ++ str "/" ++ d /\ is_quad a q /\ is_dec d p /\ p <= 32
  | V6 b p => exists a d, s = a ++ str "/" ++ d /\ In 58 a /\ ~ In 47 a /\ pton L a = Some b /\
                is_dec d p /\ p <= 128 /\ zlen s < 128
  end.

(** ** The library *)

(** inet_pton gives 16 bytes and reads ::ffff:a.b.c.d; qsort sorts. *)
Definition by_priority (l : list frec) : Prop :=
  StronglySorted (fun f g => f_priority g <= f_priority f) l.
Definition pton_ok (L : libc) : Prop :=
  (forall s b, pton L s = Some b -> bytes 16 b) /\
  (forall s q, is_quad s q -> pton L (str "::ffff:" ++ s) = Some (mapped q)).
Definition libc_ok (L : libc) : Prop :=
  pton_ok L /\ qsort_ok (sort_nodes L) /\
  forall l, Permutation l (sort_flows L l) /\ by_priority (sort_flows L l).

(** ** Definitions *)

(** The conditions of a flow; None is no condition. *)
Record rule := mkRule {
  r_protocols : option (list Z);
  r_dports : option (list range); r_sports : option (list range);
  r_dsts : option (list prefix); r_srcs : option (list prefix);
  r_match : option (list expr) }.

Definition given {A B} (R : A -> B -> Prop) (a : option A) (b : option B) : Prop :=
  match a, b with
  | None, None => True
  | Some a, Some b => R a b
  | _, _ => False
  end.

(** Protocols in any case *)
Definition any_case (s t : chars) : Prop :=
  Forall2 (fun c l => c = l \/ (97 <= l <= 122 /\ c = l - 32)) s t.
Definition proto_text (s : chars) (p : Z) : Prop := exists t, any_case s t /\ proto_name p t.

(** Ports and port ranges, separated by commas or blanks *)
Definition ports_text (s : chars) (l : list range) : Prop :=
  zlen s <= 1024 /\ Forall (acceptable 1 65535) l /\
  exists tks, pieces [44; 32] s tks /\ Forall2 (fun t r => is_range_text (t ++ [44]) r) tks l.

Definition match_texts (ss : list chars) (es : list expr) : Prop :=
  Forall2 denotes ss es /\ Forall expr_ok es /\ Forall (fun e => e_mask e <> Some 0) es /\
  Forall (fun s => zlen s <= 64) ss.

Definition cidr_texts (L : libc) (ss : list chars) (cs : list prefix) : Prop :=
  1 <= zlen ss <= 32 /\ Forall2 (cidr_text L) ss cs.

(** The arguments of flowDefine say r. *)
Definition means (L : libc) (a : fargs) (r : rule) : Prop :=
  zlen (a_name a) < 1024 /\
  given (Forall2 proto_text) (a_protocols a) (r_protocols r) /\
  given ports_text (a_dports a) (r_dports r) /\
  given ports_text (a_sports a) (r_sports r) /\
  given (cidr_texts L) (a_dsts a) (r_dsts r) /\
  given (cidr_texts L) (a_srcs a) (r_srcs r) /\
  given match_texts (a_match a) (r_match r).

(** ** Classification *)

Definition all_or {A} (o : option A) (P : A -> Prop) : Prop :=
  match o with None => True | Some a => P a end.

(** A flow accepts a packet with these addresses. *)
Definition accepts_addr (r : rule) (src dst : list Z) : Prop :=
  all_or (r_dsts r) (fun l => exists c, In c l /\ in_cidr c dst) /\
  all_or (r_srcs r) (fun l => exists c, In c l /\ in_cidr c src).

(** A flow accepts the packet [data] of the five-tuple f, with the layer-4
    header at l4. *)
Definition accepts_packet (r : rule) (f : flow) (data : list Z) (l4 : Z) : Prop :=
  accepts_addr r (fl_src f) (fl_dst f) /\
  all_or (r_protocols r) (fun l => In (fl_proto f) l) /\
  all_or (r_dports r) (fun l => covered l (port_num (fl_dport f))) /\
  all_or (r_sports r) (fun l => covered l (port_num (fl_sport f))) /\
  all_or (r_match r) (fun es => accepts es (fl_proto f) data l4).

(** ** Histories *)

Inductive op := Define (a : fargs) | Delete (name : chars).

(** What the caller is told: an error (or None) of flowDefine, the user_ref
    and udpencap of flowDelete. *)
Inductive answer := Defined (err : option string) | Deleted (r : option (Z * Z)).

Fixpoint run (L : libc) (set : list frec) (ops : list op) : outcome (list frec * list answer) :=
  match ops with
  | [] => Ok (set, [])
  | Define a :: ops' =>
      do (e, set') <- flowDefine L set a;
      do (s, l) <- run L set' ops';
      Ok (s, Defined e :: l)
  | Delete n :: ops' =>
      let (f, set') := flowDelete set n in
      do (s, l) <- run L set' ops';
      Ok (s, Deleted (match f with None => None | Some f => Some (f_ref f, f_udpencap f) end) :: l)
  end.

(** The definition in force under a name: the last one that was not refused,
    if it was not deleted. *)
Fixpoint in_force (now : chars -> option fargs) (ops : list op) (ans : list answer) : chars -> option fargs :=
  match ops, ans with
  | Define a :: ops', Defined None :: ans' =>
      in_force (fun n => if streq n (a_name a) then Some a else now n) ops' ans'
  | Delete d :: ops', _ :: ans' =>
      in_force (fun n => if streq n d then None else now n) ops' ans'
  | _ :: ops', _ :: ans' => in_force now ops' ans'
  | _, _ => now
  end.
Definition current (ops : list op) (ans : list answer) : chars -> option fargs :=
  in_force (fun _ => None) ops ans.

(** The answers to deletions that a map would give *)
Fixpoint deletions_ok (now : chars -> option fargs) (ops : list op) (ans : list answer) : Prop :=
  match ops, ans with
  | [], [] => True
  | Define a :: ops', Defined None :: ans' =>
      deletions_ok (fun n => if streq n (a_name a) then Some a else now n) ops' ans'
  | Define a :: ops', Defined (Some _) :: ans' => deletions_ok now ops' ans'
  | Delete d :: ops', Deleted r :: ans' =>
      r = match now d with None => None | Some a => Some (a_ref a, a_udpencap a) end /\
      deletions_ok (fun n => if streq n d then None else now n) ops' ans'
  | _, _ => False
  end.

(** Priorities, of type int *)
Definition is_int (p : Z) : Prop := -2147483648 <= p <= 2147483647.
(** ... whose differences are of type int *)
Definition no_overflow (ps : list Z) : Prop :=
  forall p q, In p ps -> In q ps -> is_int (p - q).

(** Texts that fit the buffer of parseCidrs *)
Definition fits (s : chars) : Prop := ~ In 58 s \/ zlen s < 128.
Definition safe_op (o : op) : Prop :=
  match o with
  | Define a => all_or (a_dsts a) (Forall fits) /\ all_or (a_srcs a) (Forall fits)
  | Delete _ => True
  end.
Definition priorities (ops : list op) : list Z :=
  flat_map (fun o => match o with Define a => [a_priority a] | Delete _ => [] end) ops.

(** ** ICMP *)

(** An ICMP message of type t, not fragmented, and with at least the common
    header of 8 bytes *)
Definition icmp_message (eth : Z) (data : list Z) (t : Z) (src dst : list Z) : Prop :=
  (eth = ETH_IP /\ exists hl s4 d4, src = mapped s4 /\ dst = mapped d4 /\
     ipv4_header data 0 hl 1 s4 d4 /\ ipv4_frag data 0 false 0 /\ at_ data hl [t] /\ hl + 8 <= zlen data) \/
  (eth = ETH_IPV6 /\ ipv6_header data 0 58 src dst /\ at_ data 40 [t] /\ 48 <= zlen data).
Definition echo_request (eth : Z) (data : list Z) (src dst : list Z) : Prop :=
  icmp_message eth data (if eth =? ETH_IP then 8 else 128) src dst.
(** Types that quote a packet *)
Definition quoting (eth t : Z) : Prop :=
  if eth =? ETH_IP then t = 3 \/ t = 4 \/ t = 5 \/ t = 11 else t = 1 \/ t = 2.

(** A definition that says something valid is accepted. *)
Definition answered (L : libc) (o : op) (an : answer) : Prop :=
  match o, an with
  | Define a, Defined e => (exists r, means L a r) -> e = None
  | Delete _, Deleted _ => True
  | _, _ => False
  end.

(** A flow without conditions *)
Definition plain_args (name : chars) (prio ref : Z) : fargs := mkArgs name prio ref None None None None None None 0.
