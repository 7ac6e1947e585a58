(** What the small utilities should do, said without their code. *)
From Coq Require Import String.
From Verif Require Import Base Cstr_Model Util_Model.

(** [pieces d s l]: s is delimiters, then the non-empty delimiter-free
    pieces l separated by at least one delimiter, then delimiters. *)
Inductive pieces (d : chars) : chars -> list chars -> Prop :=
| pieces_nil s : (forall c, In c s -> In c d) -> pieces d s []
| pieces_last sep t :
    (forall c, In c sep -> In c d) -> t <> [] -> (forall c, In c t -> ~ In c d) ->
    pieces d (sep ++ t) [t]
| pieces_cons sep t c s' l :
    (forall c, In c sep -> In c d) -> t <> [] -> (forall c, In c t -> ~ In c d) ->
    In c d -> pieces d s' l ->
    pieces d (sep ++ t ++ c :: s') (t :: l).

(** [trimmed t u]: u is t without its leading blanks. *)
Definition trimmed (t u : chars) : Prop :=
  exists n, t = repeat 32 n ++ u /\ hd 0 u <> 32.

(** The trace areas of the documentation (cmdTrace.c:50). *)
Definition areas : list (chars * Z) :=
  [(str "log", 0); (str "packet", 1); (str "frag", 2); (str "flow-conf", 3);
   (str "sctp", 4); (str "target", 5); (str "flows", 6)].

(** A 128-bit address as a number. *)
Definition value6 (w : list Z) : Z :=
  fold_left (fun v x => v * 4294967296 + x) w 0.

Definition words_ok (w : list Z) : Prop :=
  length w = 4%nat /\ Forall (fun x => 0 <= x < 4294967296) w.

(** The first s bits of two numbers of [bits] bits agree. *)
Definition agree (bits s a b : Z) : Prop := a / 2 ^ (bits - s) = b / 2 ^ (bits - s).

(** Membership of an address in a CIDR with 0 <= s <= bits. *)
Definition member (cidr : ipaddr) (s : Z) (addr : ipaddr) : Prop :=
  match cidr, addr with
  | V4 c, V4 a => agree 32 s a c
  | V6 c, V6 a => agree 128 s (value6 a) (value6 c)
  | _, _ => False
  end.

Definition addr_ok (a : ipaddr) : Prop :=
  match a with V4 x => 0 <= x < 4294967296 | V6 w => words_ok w end.
Definition width (a : ipaddr) : Z := match a with V4 _ => 32 | V6 _ => 128 end.
Definition same_family (a b : ipaddr) : Prop := width a = width b.

Definition is_int (x : Z) : Prop := -2147483648 <= x <= 2147483647.
