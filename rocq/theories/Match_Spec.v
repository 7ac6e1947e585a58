(** What a byte match expression means (C38-C40): its text form, and when a packet
    satisfies it. *)
From Coq Require Import String.
From Verif Require Import Base Cstr_Model Rangeset_Spec IpKey_Spec Match_Model.

(** "proto[off:n] & mask = value" *)
Record expr := mkExpr { e_proto : Z; e_off : Z; e_n : Z; e_mask : option Z; e_value : Z }.

Definition blanks (s : chars) : Prop := exists k, s = repeat 32 k.
Definition proto_name (p : Z) (s : chars) : Prop :=
  (p = 132 /\ s = str "sctp") \/ (p = 6 /\ s = str "tcp") \/ (p = 17 /\ s = str "udp").

(** s is a hexadecimal notation (lower case) of v. *)
Definition hex_value (c : Z) : Z := if c <? 58 then c - 48 else c - 97 + 10.
Definition is_hex (s : chars) (v : Z) : Prop :=
  s <> [] /\ Forall (fun c => 48 <= c <= 57 \/ 97 <= c <= 102) s /\
  fold_left (fun a c => a * 16 + hex_value c) s 0 = v.
(** A number: decimal (no leading zeros), or 0x and hexadecimal. *)
Definition number (s : chars) (v : Z) : Prop :=
  is_dec s v \/ exists d, s = str "0x" ++ d /\ is_hex d v.

Definition mask_text (s : chars) (m : option Z) : Prop :=
  match m with
  | None => s = []
  | Some v => exists a b d, blanks a /\ blanks b /\ is_hex d v /\ s = a ++ str "&" ++ b ++ str "0x" ++ d
  end.

(** The text s denotes the expression e. *)
Definition denotes (s : chars) (e : expr) : Prop :=
  exists p o b1 b2 n m b3 b4 v,
    s = p ++ str "[" ++ o ++ b1 ++ str ":" ++ b2 ++ n ++ str "]" ++ m ++ b3 ++ str "=" ++ b4 ++ v /\
    proto_name (e_proto e) p /\ is_dec o (e_off e) /\ is_dec n (e_n e) /\
    mask_text m (e_mask e) /\ number v (e_value e) /\
    blanks b1 /\ blanks b2 /\ blanks b3 /\ blanks b4.

(** The fixed part of the layer-4 headers (RFC 9293, 768, 9260). *)
Definition header_size (p : Z) : Z :=
  match p with 6 => 20 | 17 => 8 | 132 => 12 | _ => 0 end.

Definition is_l4proto (p : Z) : Prop := p = 6 \/ p = 17 \/ p = 132.

(** Expressions about bytes of the header, with 32-bit numbers. *)
Definition expr_ok (e : expr) : Prop :=
  is_l4proto (e_proto e) /\ (e_n e = 1 \/ e_n e = 2 \/ e_n e = 4) /\
  0 <= e_off e /\ e_off e + e_n e <= header_size (e_proto e) /\
  is_u32 (e_value e) /\ (forall m, e_mask e = Some m -> is_u32 m).

(** Number written in network byte order *)
Fixpoint network (l : list Z) : Z :=
  match l with
  | [] => 0
  | b :: r => b * 256 ^ zlen r + network r
  end.

Definition masked (m : option Z) (x : Z) : Z :=
  match m with None => x | Some v => Z.land x v end.

(** The bytes the expression names have the value it names. *)
Definition holds (e : expr) (data : list Z) (hdr : Z) : Prop :=
  exists l, zlen l = e_n e /\ at_ data (hdr + e_off e) l /\ masked (e_mask e) (network l) = e_value e.

(** All expressions for the protocol of the packet hold. *)
Definition accepts (es : list expr) (proto : Z) (data : list Z) (hdr : Z) : Prop :=
  forall e, In e es -> e_proto e = proto -> holds e data hdr.

(** matchAdd() of each text to a new match, as the flow command does. *)
Fixpoint add_texts (m : list item) (ss : list chars) : outcome (string + list item) :=
  match ss with
  | [] => Ok (inr m)
  | s :: ss' =>
      do r <- matchAdd m s;
      match r with inl e => Ok (inl e) | inr m' => add_texts m' ss' end
  end.

(** An expression as it is stored *)
Definition expr_of (i : item) : expr :=
  mkExpr (i_proto i) (i_offset i) (i_nbytes i) (if i_mask i =? 0 then None else Some (i_mask i)) (i_value i).

(** A string in a buffer: the bytes before the first 0 *)
Fixpoint cstring (buf : list Z) : chars :=
  match buf with
  | [] => []
  | c :: r => if c =? 0 then [] else c :: cstring r
  end.

(** Texts separated by commas *)
Fixpoint commas (l : list chars) : chars :=
  match l with
  | [] => []
  | [s] => s
  | s :: l' => s ++ str "," ++ commas l'
  end.

(** The syntax of expressions; leading zeros are allowed here. *)
Definition dec_digits (s : chars) : Prop := s <> [] /\ Forall (fun c => 48 <= c <= 57) s.
Definition hex_digits (s : chars) : Prop := s <> [] /\ Forall (fun c => 48 <= c <= 57 \/ 97 <= c <= 102) s.
Definition shape (s : chars) : Prop :=
  exists p o b1 b2 n m b3 b4 v,
    s = p ++ str "[" ++ o ++ b1 ++ str ":" ++ b2 ++ n ++ str "]" ++ m ++ b3 ++ str "=" ++ b4 ++ v /\
    (p = str "sctp" \/ p = str "tcp" \/ p = str "udp") /\ dec_digits o /\
    (n = str "1" \/ n = str "2" \/ n = str "4") /\
    (m = [] \/ exists a b d, m = a ++ str "&" ++ b ++ str "0x" ++ d /\ blanks a /\ blanks b /\ hex_digits d) /\
    (dec_digits v \/ exists d, v = str "0x" ++ d /\ hex_digits d) /\
    blanks b1 /\ blanks b2 /\ blanks b3 /\ blanks b4.

(** The stored offset and length do not wrap around 32 bits. *)
Definition no_wrap (i : item) : Prop := i_offset i + i_nbytes i < two32.

(** A packet whose header at l4 is complete and followed by at least one more byte. *)
Definition complete_plus (data : list Z) (proto l4 : Z) : Prop := l4 + header_size proto < zlen data.
