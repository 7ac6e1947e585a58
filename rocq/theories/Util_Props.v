(** C46, C50-C54: the small utilities. *)
From Coq Require Import String Permutation.
From Verif Require Import Base Cstr_Model Util_Model Util_Spec Util_Proofs.

(** ** C46: argument splitting *)

(** mkargv stores exactly the maximal non-empty delimiter-free pieces, each
    without its leading blanks; NULL iff there are none.  (The text is
    [pieces d s l] for exactly one l: [C46_pieces_unique].) *)
Theorem C46_exactly_the_pieces :
  forall s d, d <> [] ->
  exists l, pieces d s l /\
    match mkargv (Some s) (Some d) with
    | Ok None => l = []
    | Ok (Some args) => l <> [] /\ Forall2 trimmed l args
    | _ => False
    end.
Proof. exact mkargv_spec. Qed.
Print Assumptions C46_exactly_the_pieces.

Theorem C46_pieces_unique :
  forall d s l l', pieces d s l -> pieces d s l' -> l = l'.
Proof. exact pieces_unique. Qed.
Print Assumptions C46_pieces_unique.

Example C46_ex :
  mkargv (Some (str "tcp, udp,,  sctp")) (Some (str ",")) =
  Ok (Some [str "tcp"; str "udp"; str "sctp"]) /\
  mkargv (Some (str ",,")) (Some (str ",")) = Ok None.
Proof. vm_compute. auto. Qed.

(** ** C50: registered commands *)

(** Up to 20 commands with different names (not "-h" or "--help") are all
    found by name and all listed. *)
Theorem C50_commands_found_partial :
  forall (F : Type) (l : list (chars * F)),
  NoDup (map fst l) ->
  Forall (fun n => n <> str "-h" /\ n <> str "--help") (map fst l) ->
  zlen l <= 20 ->
  (forall n f args, In (n, f) l -> handleCmd (register l) (n :: args) = Call f (n :: args)) /\
  handleCmd (register l) [] = Help (map fst l).
Proof. exact @commands_found. Qed.
Print Assumptions C50_commands_found_partial.

(** nfqlb registers 21 commands: in whatever order the constructors run, one
    of its commands is unknown. *)
Theorem C50_nfqlb_command_lost_refuted :
  forall (F : Type) (l : list (chars * F)),
  Permutation (map fst l) nfqlb_names ->
  exists n, In n nfqlb_names /\ forall args, handleCmd (register l) (n :: args) = Unknown.
Proof. exact @nfqlb_lost. Qed.
Print Assumptions C50_nfqlb_command_lost_refuted.

Example C50_ex :
  let l := map (fun n => (str n, n)) ["linklocal"; "makeip"; "contains"]%string in
  NoDup (map fst l) /\ zlen l <= 20 /\
  handleCmd (register l) [str "makeip"; str "-h"] = Call "makeip"%string [str "makeip"; str "-h"].
Proof.
  split; [apply nodup_b; vm_compute; reflexivity|]. split; [vm_compute; congruence|].
  vm_compute. reflexivity.
Qed.

(** The order in which the object files are usually linked loses
    trace-flow-list-names. *)
Example C50_ex_lost :
  handleCmd (register (map (fun n => (n, tt)) nfqlb_names)) [str "trace-flow-list-names"] = Unknown.
Proof. vm_compute. reflexivity. Qed.

(** ** C51: makeip *)

(** With net and host in range the printed address keeps the first s1 bits
    of the base, has net in the bits s1..s2 and host behind; otherwise the
    command refuses.  [wrap = true] is a compiler with wrapping signed
    arithmetic; without it the first slot must not leave 31 bits free. *)
Theorem C51_makeip_fields_partial :
  forall wrap bits s1 s2 net host a template subnet,
  cidr_ok bits s1 s2 template -> (wrap = true \/ bits - s1 <> 31) ->
  is_int net -> is_int host -> 0 <= a < 4294967296 ->
  (0 <= net < 2 ^ (s2 - s1) /\ 0 <= host < 2 ^ (bits - s2) /\
   exists r, 0 <= r < 4294967296 /\
     makeip wrap bits s1 s2 net host a template subnet =
       Ok (r, match subnet with
              | None => None
              | Some k => Some ((if k =? 1 then s1 else s2) + (if template then 96 else 0))
              end) /\
     agree bits s1 r a /\ (r / 2 ^ (bits - s2)) mod 2 ^ (s2 - s1) = net /\
     r mod 2 ^ (bits - s2) = host) \/
  (~ (0 <= net < 2 ^ (s2 - s1) /\ 0 <= host < 2 ^ (bits - s2)) /\
   makeip wrap bits s1 s2 net host a template subnet = Die).
Proof. exact makeip_fields. Qed.
Print Assumptions C51_makeip_fields_partial.

Theorem C51_makeip_injective_partial :
  forall wrap bits s1 s2 template subnet a net host net' host' r,
  cidr_ok bits s1 s2 template -> (wrap = true \/ bits - s1 <> 31) ->
  is_int net -> is_int host -> is_int net' -> is_int host' -> 0 <= a < 4294967296 ->
  makeip wrap bits s1 s2 net host a template subnet = Ok r ->
  makeip wrap bits s1 s2 net' host' a template subnet = Ok r ->
  net = net' /\ host = host'.
Proof. exact makeip_inj. Qed.
Print Assumptions C51_makeip_injective_partial.

(** By the C standard a /1 (IPv4) or /97 (IPv6) first slot overflows an int. *)
Theorem C51_wide_slot_refuted :
  forall bits s1 s2 net host a template subnet,
  cidr_ok bits s1 s2 template -> bits - s1 = 31 -> s1 < s2 < bits ->
  0 <= net < 2 ^ (s2 - s1) -> 0 <= host < 2 ^ (bits - s2) ->
  makeip false bits s1 s2 net host a template subnet = UB.
Proof. exact makeip_ub. Qed.
Print Assumptions C51_wide_slot_refuted.

(** 192.168.128.0/17/24 with net 3 and host 7 is 192.168.131.7 *)
Example C51_ex :
  cidr_ok 32 17 24 false /\
  makeip false 32 17 24 3 7 3232268288 false (Some 2) = Ok (3232268288 + 3 * 256 + 7, Some 24) /\
  makeip false 32 17 24 128 7 3232268288 false None = Die.
Proof. split; [unfold cidr_ok; lia|]. vm_compute. auto. Qed.

Example C51_ex_ub : makeip false 32 1 24 3 7 3232268288 false None = UB.
Proof. vm_compute. reflexivity. Qed.

(** ** C52: contains *)

Theorem C52_contains_partial :
  forall wrap cidr s addr,
  addr_ok cidr -> addr_ok addr -> 0 < s <= width cidr ->
  (wrap = true \/ ~ odd_prefix cidr s) ->
  exists b, contains wrap cidr s addr = Ok b /\ (b = true <-> member cidr s addr).
Proof. exact contains_ok. Qed.
Print Assumptions C52_contains_partial.

(** A prefix length of 0 contains also the addresses of the other family. *)
Theorem C52_zero_prefix_refuted :
  forall wrap cidr addr,
  contains wrap cidr 0 addr = Ok true /\ (width cidr <> width addr -> ~ member cidr 0 addr).
Proof. exact contains_zero. Qed.
Print Assumptions C52_zero_prefix_refuted.

(** By the C standard the prefix lengths 1 (IPv4) and 1, 33, 65, 97 (IPv6)
    overflow an int. *)
Theorem C52_odd_prefix_refuted :
  forall cidr s addr,
  addr_ok cidr -> addr_ok addr -> width cidr = width addr -> odd_prefix cidr s ->
  contains false cidr s addr = UB.
Proof. exact contains_ub. Qed.
Print Assumptions C52_odd_prefix_refuted.

Example C52_ex :
  contains false (V4 167772160) 8 (V4 (167772160 + 77)) = Ok true /\
  contains false (V4 167772160) 8 (V4 (167772160 + 16777216)) = Ok false /\
  contains false (V6 [1000; 0; 0; 0]) 40 (V6 [1000; 1; 5; 6]) = Ok true /\
  contains false (V6 [1000; 0; 0; 0]) 0 (V4 5) = Ok true /\
  contains false (V6 [1000; 0; 0; 0]) 33 (V6 [1000; 1; 5; 6]) = UB.
Proof. vm_compute. auto 10. Qed.

(** ** C53: link-local addresses *)

(** fe80::/64, then the MAC with bit 1 of its first octet inverted and ff:fe
    in the middle. *)
Theorem C53_modified_eui64 :
  forall m0 m1 m2 m3 m4 m5, 0 <= m0 < 256 ->
  linklocal [m0; m1; m2; m3; m4; m5] =
  Ok ([254; 128] ++ repeat 0 6 ++
      [if Z.testbit m0 1 then m0 - 2 else m0 + 2; m1; m2; 255; 254; m3; m4; m5]).
Proof. exact linklocal_eui. Qed.
Print Assumptions C53_modified_eui64.

Theorem C53_injective :
  forall m m' r, linklocal m = Ok r -> linklocal m' = Ok r -> m = m'.
Proof. exact linklocal_inj. Qed.
Print Assumptions C53_injective.

Example C53_ex :
  linklocal [0; 17; 34; 51; 68; 85] = Ok [254;128;0;0;0;0;0;0;2;17;34;255;254;51;68;85].
Proof. vm_compute. reflexivity. Qed.

(** ** C54: trace areas *)

(** Bit j of the mask is set iff a name of the list is the area of bit j. *)
Theorem C54_union_partial :
  forall sel, exists l m,
  pieces (str ",") sel l /\ cmdTrace_mask None (Some sel) = Ok m /\
  forall j, 0 <= j -> (Z.testbit m j = true <-> exists t, In t l /\ In (t, j) areas).
Proof. exact trace_union. Qed.
Print Assumptions C54_union_partial.

(** Unknown names are not refused: a selection of one unknown name (44 is
    the comma) is accepted and selects nothing. *)
Theorem C54_unknown_ignored_refuted :
  forall t, t <> [] -> ~ In 44 t -> (forall k, ~ In (t, k) areas) ->
  cmdTrace_mask None (Some t) = Ok 0.
Proof. exact trace_unknown. Qed.
Print Assumptions C54_unknown_ignored_refuted.

Example C54_ex :
  cmdTrace_mask None (Some (str "frag,log,frag")) = Ok 5 /\
  cmdTrace_mask None (Some (str "fragment")) = Ok 0.
Proof. vm_compute. auto. Qed.
