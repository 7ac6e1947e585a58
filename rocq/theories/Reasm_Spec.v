(** What the reassembly tracker should tell (C27, C28, C62). *)
From Verif Require Import Base IpKey_Model IpKey_Spec Reasm_Model.

(** ** Datagrams *)

Record frag := mkFrag { fr_first : Z; fr_len : Z; fr_more : bool }.
Definition fr_end (f : frag) : Z := fr_first f + fr_len f.

(** f is a non-empty fragment of a datagram of n bytes. *)
Definition of_datagram (n : Z) (f : frag) : Prop :=
  0 <= fr_first f /\ 1 <= fr_len f /\ fr_end f <= n /\ (fr_more f = false <-> fr_end f = n).

Definition received (fs : list frag) (b : Z) : Prop :=
  exists f, In f fs /\ fr_first f <= b < fr_end f.

(** The last fragment has come, and every byte before its end. *)
Definition complete (fs : list frag) : Prop :=
  exists l, In l fs /\ fr_more l = false /\ forall b, 0 <= b < fr_end l -> received fs b.

(** Byte b may still come, as far as the fragments received tell. *)
Definition missing (fs : list frag) (b : Z) : Prop :=
  0 <= b /\ ~ received fs b /\ forall l, In l fs -> fr_more l = false -> b < fr_end l.

(** f, received after fs, leaves bytes missing on both sides. *)
Definition splits (fs : list frag) (f : frag) : Prop :=
  fr_more f = true /\ exists a c, missing fs a /\ missing fs c /\ a < fr_first f /\ fr_end f <= c.
Definition no_splits (fs : list frag) : Prop :=
  forall fs1 f fs2, fs = fs1 ++ f :: fs2 -> ~ splits fs1 f.

(** ** Trackers *)

(** t was made by raNew and has handled the fragments fs.  The pool is any
    one at each call: other trackers use it in between. *)
Inductive tracked : list frag -> tracker -> Prop :=
| tracked_new p t p' : raNew p = (Some t, p') -> tracked [] t
| tracked_frag fs t f p r t' p' :
    tracked fs t -> handleFragment t (fr_first f) (fr_len f) (fr_more f) p = Ok (r, t', p') ->
    tracked (fs ++ [f]) t'.

(** ** Packets *)

Definition frag_packet (data : list Z) (f : frag) : Prop :=
  zlen data < 65536 /\
  ((exists b0 l1 l2 hl mf fo,
      at_ data 0 [b0] /\ 64 <= b0 < 80 /\ hl = 4 * (b0 - 64) /\ 20 < zlen data /\ hl <= zlen data /\
      at_ data 2 [l1; l2] /\ 256 * l1 + l2 = zlen data /\ ipv4_frag data 0 mf fo /\
      f = mkFrag (8 * fo) (zlen data - hl) mf) \/
   (exists b0 hi lo,
      at_ data 0 [b0] /\ 96 <= b0 < 112 /\ at_ data 6 [44] /\ 48 < zlen data /\
      at_ data 42 [hi; lo] /\ 0 <= hi < 256 /\ 0 <= lo < 256 /\
      f = mkFrag (8 * ((256 * hi + lo) / 8)) (zlen data - 48) (Z.testbit lo 0))).

(** A fragment of IPv6 behind one other extension header (hop-by-hop options, routing or destination
    options), which is [8 * (l + 1)] bytes long (RFC 8200) *)
Definition ext_packet (data : list Z) (l : Z) (f : frag) : Prop :=
  zlen data < 65536 /\
  exists b0 nxt hi lo,
    at_ data 0 [b0] /\ 96 <= b0 < 112 /\ at_ data 6 [nxt] /\ (nxt = 0 \/ nxt = 43 \/ nxt = 60) /\
    at_ data 40 [44; l] /\ 0 <= l < 256 /\ 56 + 8 * l < zlen data /\
    at_ data (50 + 8 * l) [hi; lo] /\ 0 <= hi < 256 /\ 0 <= lo < 256 /\
    f = mkFrag (8 * ((256 * hi + lo) / 8)) (zlen data - (56 + 8 * l)) (Z.testbit lo 0).

(** ** Use of a reassembler: trackers are named by the order of creation.
    Without tracker (NULL) raHandleFragment returns 1. *)
Inductive rop := RNew | RFrag (i : nat) (f : frag) | RDestroy (i : nat).

Definition state := (pool * list (option tracker))%type.
Fixpoint set_nth {A} (l : list A) (i : nat) (a : A) : list A :=
  match l, i with
  | [], _ => []
  | _ :: l, O => a :: l
  | x :: l, S i => x :: set_nth l i a
  end.
Definition step (s : state) (o : rop) : outcome (state * Z) :=
  let (p, ts) := s in
  match o with
  | RNew => let (t, p') := raNew p in Ok ((p', ts ++ [t]), 0)
  | RFrag i f =>
      match nth i ts None with
      | None => Ok (s, 1)
      | Some t =>
          do (r, t', p') <- handleFragment t (fr_first f) (fr_len f) (fr_more f) p;
          Ok ((p', set_nth ts i (Some t')), r)
      end
  | RDestroy i =>
      match nth i ts None with
      | None => Ok (s, 0)
      | Some t => Ok ((raDestroy t p, set_nth ts i None), 0)
      end
  end.
Fixpoint rrun (s : state) (ops : list rop) : outcome (state * list Z) :=
  match ops with
  | [] => Ok (s, [])
  | o :: ops' =>
      do (s', r) <- step s o;
      do (s'', l) <- rrun s' ops';
      Ok (s'', r :: l)
  end.

(** Items in use *)
Definition used (ts : list (option tracker)) : Z :=
  fold_right Z.add 0 (map (fun t => match t with None => 0 | Some t => 1 + zlen (t_holes t) end) ts).

(** Items that were written to, and those whose hole has bytes on both sides
    of the fragment first..last *)
Definition written (l : list item) : Prop := Forall (fun i => i <> None) l.
Definition around (first last : Z) (i : item) : bool :=
  match i with None => false | Some (hf, hl) => (hf <? first) && (last <? hl) end.
Definition count_around (first last : Z) (l : list item) : Z := zlen (filter (around first last) l).
