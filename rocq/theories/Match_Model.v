(** Byte matches on the layer-4 header, src/lib/match.c.

    Packets are byte lists as in IpKey_Model: reading outside is [UB].
    regcomp/regexec are the C library's; they are modelled by a matcher for
    regular expressions (POSIX 2.8.4, C locale: nothing calls setlocale). *)
From Coq Require Import String.
From Verif Require Import Base Cstr_Model IpKey_Model Rangeset_Model.

(** ** Regular expressions *)
Inductive re :=
| Nothing
| Empty
| Cls (f : Z -> bool)
| Seq (a b : re)
| Alt (a b : re)
| Star (a : re).

(** r matches the empty string *)
Fixpoint nullable (r : re) : bool :=
  match r with
  | Nothing => false
  | Empty => true
  | Cls _ => false
  | Seq a b => nullable a && nullable b
  | Alt a b => nullable a || nullable b
  | Star _ => true
  end.

(** What has to follow when the next character is c. *)
Fixpoint deriv (r : re) (c : Z) : re :=
  match r with
  | Nothing => Nothing
  | Empty => Nothing
  | Cls f => if f c then Empty else Nothing
  | Seq a b => if nullable a then Alt (Seq (deriv a c) b) (deriv b c) else Seq (deriv a c) b
  | Alt a b => Alt (deriv a c) (deriv b c)
  | Star a => Seq (deriv a c) (Star a)
  end.

(** "^r$" *)
Fixpoint regexec (r : re) (s : chars) : bool :=
  match s with
  | [] => nullable r
  | c :: s' => regexec (deriv r c) s'
  end.

Definition Chr (x : Z) : re := Cls (Z.eqb x).
Fixpoint Lit (s : chars) : re := match s with [] => Empty | c :: s' => Seq (Chr c) (Lit s') end.
Definition Plus (r : re) : re := Seq r (Star r).
Definition Opt (r : re) : re := Alt Empty r.
(** [0-9], [0-9a-f], [124] *)
Definition dec_class (c : Z) : bool := (48 <=? c) && (c <=? 57).
Definition hex_class (c : Z) : bool := dec_class c || (97 <=? c) && (c <=? 102).
Definition n_class (c : Z) : bool := (c =? 49) || (c =? 50) || (c =? 52).
Definition Blanks : re := Star (Chr 32).
Definition Hex : re := Seq (Lit (str "0x")) (Plus (Cls hex_class)).

(** REGEX, match.c:24 *)
Definition REGEX : re :=
  Seq (Alt (Lit (str "sctp")) (Alt (Lit (str "tcp")) (Lit (str "udp"))))
 (Seq (Chr 91)
 (Seq (Plus (Cls dec_class))
 (Seq Blanks (Seq (Chr 58) (Seq Blanks
 (Seq (Cls n_class)
 (Seq (Chr 93)
 (Seq (Opt (Seq Blanks (Seq (Chr 38) (Seq Blanks Hex))))
 (Seq Blanks (Seq (Chr 61) (Seq Blanks
      (Alt (Plus (Cls dec_class)) Hex)))))))))))).

(** ** Expressions *)

(** struct MatchItem, match.c:29-35 *)
Record item := mkItem { i_proto : Z; i_offset : Z; i_nbytes : Z; i_mask : Z; i_value : Z }.

(** headerlength, match.c:42-53 *)
Definition headerlength (p : Z) : Z :=
  if p =? 132 then 12 else if p =? 6 then 20 else if p =? 17 then 8 else 0.

(** strncmp(str, p, strlen(p)) == 0 *)
Fixpoint starts (p s : chars) : bool :=
  match p, s with
  | [], _ => true
  | x :: p', y :: s' => (x =? y) && starts p' s'
  | _, [] => false
  end.

(** strchr(s, c) + 1; a NULL is dereferenced by the strtol that follows *)
Definition after (c : Z) (s : chars) : outcome chars :=
  match split_at c s with Some (_, r) => Ok r | None => UB end.

(** matchParse, match.c:68-104: an error text or the item.  The fields are
    unsigned, strtol's long is cut to 32 bits; mask is 0 before the call. *)
Definition matchParse (s : chars) : outcome (string + item) :=
  if 64 <? zlen s then Ok (inl "String too long"%string)
  else if negb (regexec REGEX s) then Ok (inl "Doesn't match regexp"%string)
  else
    let proto :=
      if starts (str "sctp") s then Some 132
      else if starts (str "tcp") s then Some 6
      else if starts (str "udp") s then Some 17
      else None in
    match proto with
    | None => Ok (inl "Unknown protocol"%string)
    | Some p =>
        do a <- after 91 s;
        let (off, e1) := strtol 0 a in
        let off := u32 off in
        do b <- after 58 e1;
        let (nb, e2) := strtol 0 b in
        let nb := u32 nb in
        if negb (nb =? 1) && negb (nb =? 2) && negb (nb =? 4) then Ok (inl "Nbytes invalid"%string)
        else if headerlength p <? u32 (off + nb) then Ok (inl "Out of bounds"%string)
        else
          let '(mask, e3) :=
            match split_at 38 e2 with
            | Some (_, r) => let (m, e) := strtol 0 r in (u32 m, e)
            | None => (0, e2)
            end in
          do v <- after 61 e3;
          Ok (inr (mkItem p off nb mask (u32 (fst (strtol 0 v)))))
    end.

(** struct Match, match.c:37-40: the items; matchCreate, 55-59 *)
Definition matchCreate : list item := [].

(** matchAdd, match.c:111-131 (reallocarray succeeds, else die); itemCount
    is an unsigned and does not wrap *)
Definition matchAdd (m : list item) (s : chars) : outcome (string + list item) :=
  do r <- matchParse s;
  match r with
  | inl e => Ok (inl e)
  | inr i => Ok (inr (m ++ [i]))
  end.

(** ** Packets *)

(** l4headerIpv4, match.c:211-226: protocol and offset of the header; None
    is NULL *)
Definition l4headerIpv4 (data : list Z) : outcome (option (Z * Z)) :=
  if negb (in_bounds 0 20 (zlen data)) then Ok None
  else
    do p <- aget data 9;
    do b0 <- aget data 0;
    let off := 4 * (b0 mod 16) in
    if negb (in_bounds off (headerlength p) (zlen data)) then Ok None
    else Ok (Some (p, off)).

(** The loop match.c:238-248.  Each round moves at least 8 bytes forward
    inside the packet, so [length data] rounds suffice. *)
Fixpoint l4_loop (fuel : nat) (data : list Z) (htype hdr : Z) : outcome (option (Z * Z)) :=
  if negb (is_ext htype) then Ok (Some (htype, hdr))
  else if htype =? 44 then Ok None
  else match fuel with
  | O => Fuel
  | S f =>
      if negb (in_bounds hdr 2 (zlen data)) then Ok None
      else
        do nxt <- aget data hdr;
        do l <- aget data (hdr + 1);
        if l =? 0 then Ok None else l4_loop f data nxt (hdr + l * 8)
  end.

(** l4headerIpv6, match.c:228-254 *)
Definition l4headerIpv6 (data : list Z) : outcome (option (Z * Z)) :=
  if negb (in_bounds 0 40 (zlen data)) then Ok None
  else
    do nxt <- aget data 6;
    do r <- l4_loop (length data) data nxt 40;
    match r with
    | None => Ok None
    | Some (htype, hdr) =>
        if negb (in_bounds hdr (headerlength htype) (zlen data)) then Ok None
        else Ok (Some (htype, hdr))
    end.

(** A big-endian number *)
Definition be (l : list Z) : Z := fold_left (fun a b => a * 256 + b) l 0.

(** matchesItem, match.c:188-209 *)
Definition matchesItem (i : item) (data : list Z) (hdr : Z) : outcome bool :=
  do x <- rdn data (hdr + i_offset i) (Z.to_nat (i_nbytes i));
  let x := be x in
  let x := if i_mask i =? 0 then x else Z.land x (i_mask i) in
  Ok (x =? i_value i).

(** The loop match.c:178-184 *)
Fixpoint items_match (m : list item) (l4proto : Z) (data : list Z) (hdr : Z) : outcome bool :=
  match m with
  | [] => Ok true
  | i :: m' =>
      if i_proto i =? l4proto then
        do b <- matchesItem i data hdr;
        if b then items_match m' l4proto data hdr else Ok false
      else items_match m' l4proto data hdr
  end.

(** matchMatches, match.c:145-186; None is a NULL match; proto 2048 is
    ETH_P_IP *)
Definition matchMatches (m : option (list item)) (proto l4 : Z) (data : list Z) : outcome bool :=
  match m with
  | None => Ok true
  | Some [] => Ok true
  | Some m =>
      do r <- (if proto =? 2048 then l4headerIpv4 data else l4headerIpv6 data);
      match r with
      | None => Ok false
      | Some (l4proto, hdr) =>
          if (l4proto =? 17) && (l4 =? 132) then
            let hdr := hdr + 8 in
            if negb (in_bounds hdr (headerlength 132) (zlen data)) then Ok false
            else items_match m 132 data hdr
          else items_match m l4proto data hdr
      end
  end.

(** ** Printing *)

(** "%x" of a 32-bit number *)
Definition hexchar (d : Z) : Z := if d <? 10 then 48 + d else 87 + d.
Fixpoint hex_aux (fuel : nat) (v : Z) (acc : chars) : chars :=
  match fuel with
  | O => acc
  | S f => let acc' := hexchar (v mod 16) :: acc in
           if v <? 16 then acc' else hex_aux f (v / 16) acc'
  end.
Definition hex (v : Z) : chars := hex_aux 8 v [].

(** protostring, match.c:255-266 *)
Definition protostring (p : Z) : chars :=
  if p =? 132 then str "sctp" else if p =? 6 then str "tcp" else if p =? 17 then str "udp" else [].

(** The formats match.c:283-291 *)
Definition item_text (i : item) : chars :=
  protostring (i_proto i) ++ str "[" ++ dec (i_offset i) ++ str ":" ++ dec (i_nbytes i) ++ str "]" ++
  (if i_mask i =? 0 then [] else str "&0x" ++ hex (i_mask i)) ++ str "=0x" ++ hex (i_value i).

(** matchString, match.c:268-298: the loop.  The buffer has [blen] = len
    bytes; pos is str - (the start); the result is the return code. *)
Fixpoint print_items (m : list item) (buf : list Z) (pos : Z) : outcome (list Z * Z) :=
  match m with
  | [] => Ok (buf, 0)
  | i :: m' =>
      let left := zlen buf - pos in
      do (buf, pos) <-
        (if (left <? zlen buf) && (2 <? left) then
           do b <- aset buf pos 44; Ok (b, pos + 1)
         else Ok (buf, pos));
      let left := zlen buf - pos in
      let s := item_text i in
      do buf <- snprintf buf pos left s;
      if left <=? zlen s then Ok (buf, 1)
      else print_items m' buf (pos + zlen s)
  end.
Definition matchString (m : list item) (buf : list Z) : outcome (list Z * Z) :=
  if zlen buf =? 0 then Ok (buf, -1)
  else
    do b <- aset buf 0 0;
    print_items m b 0.
