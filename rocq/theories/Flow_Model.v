(** Flow classification, src/lib/flow.c.

    The reader/writer lock is held by every operation for its whole effect
    on the set, so operations are atomic here.  match_count and printing are
    not modelled, nor the memory of flows (each is freed exactly when it is
    taken out of the array).  calloc, realloc and strndup do not fail (else
    die). *)
From Coq Require Import String.
From Verif Require Import Base Cstr_Model IpKey_Model Rangeset_Model Match_Model.

(** struct Cidr, flow.c:27-30: address and mask, each two 64-bit words in
    network byte order; the model has their values in host order (masking
    and comparing words does not depend on it). *)
Record cidr := mkCidr { c_adr : Z * Z; c_mask : Z * Z }.

(** struct Flow, flow.c:32-44; user_ref is an address, 0 is NULL *)
Record frec := mkF {
  f_name : chars; f_priority : Z; f_ref : Z;
  f_protocols : option (list Z);
  f_dports : option rset; f_sports : option rset;
  f_dsts : option (list cidr); f_srcs : option (list cidr);
  f_match : option (list item);
  f_udpencap : Z }.

(** The library functions used: inet_pton(AF_INET6, ..) to 16 bytes, qsort of
    the rangeset nodes and of the flows (flow.c:305). *)
Record libc := mkLibc {
  pton : chars -> option (list Z);
  sort_nodes : sorter;
  sort_flows : list frec -> list frec }.

(** cmpFlows, flow.c:105-111: f2->priority - f1->priority in int *)
Definition INT_MAX : Z := 2147483647.
Definition INT_MIN : Z := -2147483648.
Definition cmpFlows (f1 f2 : frec) : outcome Z :=
  let d := f_priority f2 - f_priority f1 in
  if (INT_MIN <=? d) && (d <=? INT_MAX) then Ok d else UB.

(** qsort, flow.c:305.  Which flows it compares is unspecified; an overflow
    in the comparison of any two of them is taken as UB. *)
Definition comparable (l : list frec) : bool :=
  forallb (fun a => forallb (fun b => match cmpFlows a b with Ok _ => true | _ => false end) l) l.
Definition sortFlows (L : libc) (l : list frec) : outcome (list frec) :=
  if comparable l then Ok (sort_flows L l) else UB.

(** strcasecmp(a, b) == 0 *)
Definition lowercase (c : Z) : Z := if (65 <=? c) && (c <=? 90) then c + 32 else c.
Definition caseeq (a b : chars) : bool := streq (map lowercase a) (map lowercase b).

(** parseProtocol, flow.c:113-139, argv not NULL: None is NULL, else the
    protocols before the terminating 0 *)
Fixpoint protobits (argv : list chars) (t u s : bool) : option (bool * bool * bool) :=
  match argv with
  | [] => Some (t, u, s)
  | a :: r =>
      if caseeq (str "tcp") a then protobits r true u s
      else if caseeq (str "udp") a then protobits r t true s
      else if caseeq (str "sctp") a then protobits r t u true
      else None
  end.
Definition parseProtocol (argv : list chars) : option (list Z) :=
  match protobits argv false false false with
  | None => None
  | Some (t, u, s) => Some ((if t then [6] else []) ++ (if u then [17] else []) ++ (if s then [132] else []))
  end.

(** The 64-bit words of an address *)
Definition words (a : list Z) : Z * Z := (be (firstn 8 a), be (skipn 8 a)).

(** UINT64_MAX << n *)
Definition shl64 (n : Z) : outcome Z :=
  if (0 <=? n) && (n <? 64) then Ok (u64 (Z.shiftl UINT64_MAX n)) else UB.

(** The bit-mask, flow.c:185-195 *)
Definition cidrMask (mask : Z) : outcome (Z * Z) :=
  if 64 <? mask then do m <- shl64 (128 - mask); Ok (UINT64_MAX, m)
  else if mask =? 0 then Ok (0, 0)
  else do m <- shl64 (64 - mask); Ok (m, 0).

(** maskAdr, flow.c:141-146 *)
Definition maskAdr (a m : Z * Z) : Z * Z := (Z.land (fst a) (fst m), Z.land (snd a) (snd m)).

(** The buffer s[128] as a string, flow.c:163-171.  strncpy does not
    terminate a longer text; the strchr or sscanf that follow then read
    behind the buffer. *)
Definition cidrText (a : chars) : outcome (chars * bool) :=
  match split_at 58 a with
  | None => Ok (firstn 127 (str "::ffff:" ++ a), true)
  | Some _ => if zlen a <? 128 then Ok (a, false) else UB
  end.

(** One round of the loop flow.c:162-198: None is "goto bailout" *)
Definition parseCidr (L : libc) (a : chars) : outcome (option cidr) :=
  do (s, v4) <- cidrText a;
  match split_at 47 s with
  | None => Ok None
  | Some (adr, m) =>
      match scanu m with
      | None => Ok None
      | Some (mask, _) =>
          let mask := if v4 then u32 (mask + 96) else mask in
          if 128 <? mask then Ok None
          else match pton L adr with
               | None => Ok None
               | Some bytes =>
                   do mk <- cidrMask mask;
                   Ok (Some (mkCidr (maskAdr (words bytes) mk) mk))
               end
      end
  end.

(** parseCidrs, flow.c:148-204, argv not NULL; MAX_CIDRS is 32 *)
Fixpoint parseAll (L : libc) (l : list chars) : outcome (option (list cidr)) :=
  match l with
  | [] => Ok (Some [])
  | a :: l' =>
      do c <- parseCidr L a;
      match c with
      | None => Ok None
      | Some c =>
          do r <- parseAll L l';
          match r with None => Ok None | Some cs => Ok (Some (c :: cs)) end
      end
  end.
Definition parseCidrs (L : libc) (argv : list chars) : outcome (option (list cidr)) :=
  if zlen argv =? 0 then Ok None
  else if 32 <? zlen argv then Ok None
  else parseAll L argv.

(** Ports, flow.c:238-250: None is an error.  A text of n characters has
    fewer than n+1 ranges, the fuel of rangeSetUpdate. *)
Definition parsePorts (L : libc) (s : chars) : outcome (option rset) :=
  match rangeSetCreateLimited 1 65535 with
  | None => UB
  | Some t =>
      do (t, ok) <- rangeSetAddStr t s;
      if ok then do t <- rangeSetUpdate (sort_nodes L) (S (length s)) t; Ok (Some t)
      else Ok None
  end.

(** The arguments of flowDefine; None is NULL *)
Record fargs := mkArgs {
  a_name : chars; a_priority : Z; a_ref : Z;
  a_protocols : option (list chars);
  a_dports : option chars; a_sports : option chars;
  a_dsts : option (list chars); a_srcs : option (list chars);
  a_match : option (list chars);
  a_udpencap : Z }.

(** "if (x != NULL) { f->x = parse(x); if (f->x == NULL) BAILOUT }" *)
Definition ifgiven {A B} (e : string) (x : option A) (parse : A -> outcome (option B))
    : outcome (string + option B) :=
  match x with
  | None => Ok (inr None)
  | Some a => do r <- parse a; match r with None => Ok (inl e) | Some b => Ok (inr (Some b)) end
  end.

(** The loop flow.c:265-270.  The model does not have the text of the error
    (it is cut to 127 characters by snprintf). *)
Fixpoint addMatches (m : list item) (l : list chars) : outcome (option (list item)) :=
  match l with
  | [] => Ok (Some m)
  | s :: l' =>
      do r <- matchAdd m s;
      match r with inl _ => Ok None | inr m' => addMatches m' l' end
  end.

(** MAX_NAME, flow.c:20 *)
Definition MAX_NAME : Z := 1024.

(** flowDefine up to taking the lock, flow.c:206-275: an error or the flow *)
Definition makeFlow (L : libc) (a : fargs) : outcome (string + frec) :=
  if MAX_NAME <=? zlen (a_name a) then Ok (inl "Name too long"%string)
  else
    do p <- ifgiven "Invalid protocols" (a_protocols a) (fun v => Ok (parseProtocol v));
    match p with inl e => Ok (inl e) | inr p =>
    do dp <- ifgiven "Invalid dports" (a_dports a) (parsePorts L);
    match dp with inl e => Ok (inl e) | inr dp =>
    do sp <- ifgiven "Invalid dports" (a_sports a) (parsePorts L);
    match sp with inl e => Ok (inl e) | inr sp =>
    do ds <- ifgiven "Invalid dsts" (a_dsts a) (parseCidrs L);
    match ds with inl e => Ok (inl e) | inr ds =>
    do ss <- ifgiven "Invalid srcs" (a_srcs a) (parseCidrs L);
    match ss with inl e => Ok (inl e) | inr ss =>
    do m <- ifgiven "Match" (a_match a) (addMatches matchCreate);
    match m with inl e => Ok (inl e) | inr m =>
    Ok (inr (mkF (a_name a) (a_priority a) (a_ref a) p dp sp ds ss m (a_udpencap a)))
    end end end end end end.

(** strncmp(f->name, name, MAX_NAME) == 0: stored names are shorter than
    MAX_NAME, so this compares whole strings *)
Definition named (name : chars) (f : frec) : bool := streq (f_name f) name.

(** flow.c:279-302: replace the flow of that name or append *)
Fixpoint replaceFlow (f : frec) (l : list frec) : option (list frec) :=
  match l with
  | [] => None
  | g :: l' =>
      if named (f_name f) g then Some (f :: l')
      else match replaceFlow f l' with None => None | Some r => Some (g :: r) end
  end.
Definition insertFlow (f : frec) (l : list frec) : list frec :=
  match replaceFlow f l with Some r => r | None => l ++ [f] end.

(** flowDefine, flow.c:206-312; name is not NULL *)
Definition flowDefine (L : libc) (set : list frec) (a : fargs) : outcome (option string * list frec) :=
  do r <- makeFlow L a;
  match r with
  | inl e => Ok (Some e, set)
  | inr f => do s <- sortFlows L (insertFlow f set); Ok (None, s)
  end.

(** flowDelete, flow.c:314-337: the flow taken out, if any *)
Fixpoint flowDelete (set : list frec) (name : chars) : option frec * list frec :=
  match set with
  | [] => (None, [])
  | f :: l =>
      if named name f then (Some f, l)
      else let (r, l') := flowDelete l name in (r, f :: l')
  end.

(** The search in flowLookupName, flow.c:339-356 *)
Fixpoint findName (set : list frec) (name : chars) : option frec :=
  match set with
  | [] => None
  | f :: l => if named name f then Some f else findName l name
  end.

(** ** Classification *)

(** addrInCidr, flow.c:358-362 *)
Definition addrInCidr (c : cidr) (adr : list Z) : bool :=
  let a := maskAdr (words adr) (c_mask c) in
  (fst (c_adr c) =? fst a) && (snd (c_adr c) =? snd a).

(** key->ports: proto, src, dst *)
Definition kproto (k : key) : Z := nth 2 (k_id k) 0 + 256 * nth 3 (k_id k) 0.
Definition ksport (k : key) : Z := be16 (firstn 2 (skipn 4 (k_id k))).
Definition kdport (k : key) : Z := be16 (firstn 2 (skipn 6 (k_id k))).

(** A list that is NULL puts no condition. *)
Definition inCidrs (o : option (list cidr)) (adr : list Z) : bool :=
  match o with None => true | Some l => existsb (fun c => addrInCidr c adr) l end.
(** The tree has at most rangeSetSize() levels. *)
Definition inPorts (o : option rset) (p : Z) : outcome bool :=
  match o with None => Ok true | Some t => rangeSetIn (S (Z.to_nat (rangeSetSize t))) t p end.

(** What flowMatch, flow.c:364-432, finds; Ping and Match differ in whether
    udpencap is written *)
Inductive verdict := NoMatch | Ping | Match.

(** [pkt] is the packet (None: data is NULL, or len is 0) *)
Definition flowMatch (ping : bool) (k : key) (f : frec) (l3proto : Z) (pkt : option (list Z))
    : outcome verdict :=
  if negb (inCidrs (f_dsts f) (k_dst k)) then Ok NoMatch
  else if negb (inCidrs (f_srcs f) (k_src k)) then Ok NoMatch
  else if ping && ((kproto k =? 1) || (kproto k =? 58)) && negb (forallb (Z.eqb 0) (k_id k)) then Ok Ping
  else if negb (match f_protocols f with None => true | Some l => existsb (Z.eqb (kproto k)) l end)
  then Ok NoMatch
  else
    do d <- inPorts (f_dports f) (kdport k);
    if negb d then Ok NoMatch else
    do s <- inPorts (f_sports f) (ksport k);
    if negb s then Ok NoMatch else
    do m <- (match f_match f, pkt with
             | Some m, Some data => matchMatches (Some m) l3proto (kproto k) data
             | _, _ => Ok true
             end);
    Ok (if m then Match else NoMatch).

(** flowLookup, flow.c:434-456: user_ref and *udpencap, whose value before
    the call is the argument *)
Fixpoint flowLookup (ping : bool) (set : list frec) (k : key) (l3proto : Z) (pkt : option (list Z))
    (udpencap : Z) : outcome (Z * Z) :=
  match set with
  | [] => Ok (0, udpencap)
  | f :: l =>
      do v <- flowMatch ping k f l3proto pkt;
      let u := match v with Match => f_udpencap f | _ => udpencap end in
      let ref := match v with NoMatch => 0 | _ => f_ref f end in
      if ref =? 0 then flowLookup ping l k l3proto pkt u else Ok (ref, u)
  end.

(** ** Printing of CIDRs, flow.c:458-478 *)

(** The loop of leadingones; x has 64 bits *)
Fixpoint ones (n : nat) (x : Z) : Z :=
  match n with
  | O => 0
  | S n' => if Z.testbit x 63 then 1 + ones n' (u64 (x * 2)) else 0
  end.
Definition leadingones (x : Z) : Z :=
  if x =? UINT64_MAX then 64 else if x =? 0 then 0 else ones 64 x.
Definition printedLength (c : cidr) : Z := leadingones (fst (c_mask c)) + leadingones (snd (c_mask c)).
