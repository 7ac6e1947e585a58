(** What the options of lb and flowlb ask for (C75). *)
From Coq Require Import String.
From Verif Require Import Base Cstr_Model Rangeset_Spec Opt_Model Opt_Spec Stats_Model FlowLb_Model Start_Model.
From Verif Require Frag_Model.

(** The text is the number v, an int. *)
Definition is_num (s : chars) (v : Z) : Prop :=
  - 2147483648 <= v <= 2147483647 /\ (is_dec s v \/ exists d, s = 45 :: d /\ is_dec d (- v)).
(** The value of option n is the number v. *)
Definition number (opts : list opt) (its : list item) (n : string) (v : Z) : Prop :=
  exists s, value_of opts its n (Some s) /\ is_num s v.

(** The queues from a to b *)
Definition queue_text (s : chars) (a b : Z) : Prop :=
  (is_dec s a /\ a = b /\ a <= 2147483647) \/
  (exists d e, s = d ++ str ":" ++ e /\ is_dec d a /\ is_dec e b /\ is_u32 a /\ is_u32 b /\ a <= b).

(** What the options that both commands have ask for *)
Record wanted := mkWant { w_mtu : Z; w_tun : option chars; w_reasm : Z; w_notargets : Z; w_mode : Z; w_first : Z; w_last : Z; w_qlen : Z;
                          w_stats : chars; w_size : Z; w_buckets : Z; w_frag : Z; w_ttl : Z; w_tier : option chars }.
Definition says (opts : list opt) (its : list item) (w : wanted) : Prop :=
  number opts its "mtu" (w_mtu w) /\ value_of opts its "tun" (w_tun w) /\ number opts its "reassembler" (w_reasm w) /\
  number opts its "notargets_fwmark" (w_notargets w) /\ number opts its "hash_mode" (w_mode w) /\
  (exists s, value_of opts its "queue" (Some s) /\ queue_text s (w_first w) (w_last w)) /\ number opts its "qlength" (w_qlen w) /\
  value_of opts its "ft_shm" (Some (w_stats w)) /\ number opts its "ft_size" (w_size w) /\ number opts its "ft_buckets" (w_buckets w) /\
  number opts its "ft_frag" (w_frag w) /\ number opts its "ft_ttl" (w_ttl w) /\ value_of opts its "lbshm" (w_tier w).

(** Sizes, times and modes are not negative. *)
Definition sensible (w : wanted) : Prop :=
  Forall (fun v => 0 <= v) [w_mode w; w_qlen w; w_size w; w_buckets w; w_frag w; w_ttl w].
(** The mtu is large enough, the tun device can be opened and its mtu is not
    smaller; its name fits. *)
Definition usable (E : env) (w : wanted) : Prop :=
  576 <= w_mtu w /\ match w_tun w with None => True | Some d => e_tun E d = true /\ zlen d < 40 /\ w_mtu w <= e_mtu E d end.
(** The table of the LB tier *)
Definition tier_of (E : env) (w : wanted) (t : option (Z * Z)) : Prop :=
  match w_tier w with None => t = None | Some n => exists x, e_shm E n = Some x /\ t = Some x end.

(** The fragment table: without tun device no fragments are stored. *)
Definition frag_conf (w : wanted) : Frag_Model.conf :=
  Frag_Model.mkConf (w_size w) (w_buckets w) (match w_tun w with None => 0 | Some _ => w_frag w end) (w_mtu w) (w_ttl w).
Definition with_tun (w : wanted) : bool := match w_tun w with None => false | Some _ => true end.
(** The steps on the shared statistics *)
Definition opens (i : Z) (w : wanted) : list hlabel := [HTrunc (w_stats w); HZero (w_stats w); HReady i (w_stats w) (frag_conf w)].
