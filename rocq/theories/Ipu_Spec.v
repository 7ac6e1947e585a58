(** What the commands of ipu should do, said without their code. *)
From Coq Require Import String.
From Verif Require Import Base Cstr_Model Util_Spec Rangeset_Model Rangeset_Spec IpKey_Spec Match_Spec Start_Spec Ipu_Model Opt_Model Opt_Spec.

(** ** The library *)

(** inet_pton gives 4 or 16 bytes, from texts that have no '/', and have a ':'
    exactly if they are for IPv6; what inet_ntop writes is read back as the
    same address; ether_aton gives 6 bytes. *)
Record ilib_ok (L : ilib) : Prop := {
  ok_pton4 : forall s b, i_pton4 L s = Some b -> bytes 4 b /\ ~ In 58 s /\ ~ In 47 s;
  ok_pton6 : forall s b, i_pton6 L s = Some b -> bytes 16 b /\ In 58 s /\ ~ In 47 s;
  ok_ntop4 : forall b, bytes 4 b -> i_pton4 L (i_ntop4 L b) = Some b;
  ok_ntop6 : forall b, bytes 16 b -> i_pton6 L (i_ntop6 L b) = Some b;
  ok_aton : forall s b, i_aton L s = Some b -> bytes 6 b }.

(** The text t is the address v of w bits. *)
Definition reads (L : ilib) (t : chars) (w v : Z) : Prop :=
  (w = 32 /\ exists b, i_pton4 L t = Some b /\ v = network b) \/
  (w = 128 /\ exists b, i_pton6 L t = Some b /\ v = network b).
Definition no_address (L : ilib) (t : chars) : Prop := forall w v, ~ reads L t w v.

(** ** makeip *)

(** base/s1/s2 or base/s1 (then s2 is s1) *)
Definition slots (s base : chars) (s1 s2 : Z) : Prop :=
  zlen s <= 52 /\ ~ In 47 base /\ 0 <= s1 < 2 ^ 31 /\ 0 <= s2 < 2 ^ 31 /\
  ((exists d, s = base ++ str "/" ++ d /\ Match_Spec.number d s1 /\ s2 = s1) \/
   (exists d1 d2, s = base ++ str "/" ++ d1 ++ str "/" ++ d2 /\ Match_Spec.number d1 s1 /\ Match_Spec.number d2 s2)).

(** The line has the cidr [s], the net, the host, --subnet k and the template. *)
Definition makes (its : list item) (s : chars) (net host : Z) (sub : option Z) (tpl : option chars) : Prop :=
  Forall (item_ok makeipOpts) its /\
  value_of makeipOpts its "cidr" (Some s) /\
  Start_Spec.number makeipOpts its "net" net /\ Start_Spec.number makeipOpts its "host" host /\
  match sub with
  | None => value_of makeipOpts its "subnet" None
  | Some k => Start_Spec.number makeipOpts its "subnet" k
  end /\ value_of makeipOpts its "ipv6template" tpl.

(** r, of w bits, has the first s1 bits of v, then net up to bit s2, then host. *)
Definition composed (w s1 s2 v net host r : Z) : Prop :=
  0 <= r < 2 ^ w /\ agree w s1 r v /\ (r / 2 ^ (w - s2)) mod 2 ^ (s2 - s1) = net /\ r mod 2 ^ (w - s2) = host.
Definition in_slots (w s1 s2 net host : Z) : Prop := 0 <= net < 2 ^ (s2 - s1) /\ 0 <= host < 2 ^ (w - s2).

(** The slots that can be handled: IPv6 has all but 31 bits in front of them. *)
Definition usable (w s1 s2 : Z) (tpl : option chars) : Prop :=
  1 <= s1 <= s2 /\ s2 <= w /\ (w = 128 -> 97 <= s1 /\ tpl = None).

(** What is printed for the address v of w bits: the text, with the length of
    the subnet if asked for.  In a template the address is the last 32 bits. *)
Definition shown_as (L : ilib) (w v s1 s2 : Z) (sub : option Z) (tpl : option chars) (out : chars) : Prop :=
  exists t w' v', reads L t w' v' /\
    match tpl with
    | None => w' = w /\ v' = v
    | Some x => exists p, reads L x 128 p /\ w' = 128 /\ v' = p / 2 ^ 32 * 2 ^ 32 + v
    end /\
    match sub with
    | None => out = t ++ [10]
    | Some k => exists d, is_dec d ((if k =? 1 then s1 else s2) + (w' - w)) /\ out = t ++ str "/" ++ d ++ [10]
    end.

(** The width of the family a text is taken for *)
Definition family (t : chars) (w : Z) : Prop := (In 58 t /\ w = 128) \/ (~ In 58 t /\ w = 32).

(** ** contains *)

Definition asks (its : list item) (s : chars) : Prop :=
  Forall (item_ok containsOpts) its /\ value_of containsOpts its "cidr" (Some s).
(** net/s with a decimal length *)
Definition cidr (x net : chars) (s : Z) : Prop :=
  exists d, x = net ++ str "/" ++ d /\ ~ In 47 net /\ is_dec d s /\ s < 2 ^ 31.
(** Lengths for which an int overflows *)
Definition overflows (w s : Z) : Prop := (w = 32 /\ s = 1) \/ (w = 128 /\ (s = 1 \/ s = 33 \/ s = 65 \/ s = 97)).

(** ** Lines that are refused *)

(** The commands and their options *)
Definition commands : list (list opt * (bool -> ilib -> list chars -> iended)) :=
  [(linklocalOpts, fun _ => cmdLinklocal); (makeipOpts, cmdMakeip); (containsOpts, cmdContains)].
(** The option with this name is on the line. *)
Definition on_line (opts : list opt) (its : list item) (n : string) : Prop :=
  exists it i o, In it its /\ znth opts i = Some o /\ p_name o = str n /\ mentions opts it i.
(** A word that looks like an option and names none *)
Definition no_option (opts : list opt) (w : chars) : Prop :=
  ~ plain_word w /\ w <> str "--" /\
  forall two a v i, w = dashes two ++ a \/ w = dashes two ++ a ++ 61 :: v -> ~ denotes opts a i.
