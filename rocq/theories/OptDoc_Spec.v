(** The defaults and the required options of the commands, as users rely on them (C68, C75). *)
From Coq Require Import String.
From Verif Require Import Base Cstr_Model Opt_Model Opt_Spec.

Inductive absent := Default (s : string) | Nothing | Needed.
(** What holds when the option is not on the line *)
Definition if_absent : list (list opt * list (string * absent)) := [
  (lbOpts, [("tshm", Default "nfqlb"); ("queue", Default "2"); ("qlength", Default "1024"); ("mtu", Default "1500"); ("tun", Nothing); ("lbshm", Nothing);
            ("reassembler", Default "0"); ("sctp_encap", Default "0"); ("notargets_fwmark", Default "-1"); ("hash_mode", Default "1");
            ("ft_shm", Default "ftshm"); ("ft_size", Default "500"); ("ft_buckets", Default "500"); ("ft_frag", Default "100"); ("ft_ttl", Default "200");
            ("trace_address", Default "unix:nfqlb-trace")]);
  (flowlbOpts, [("queue", Default "2"); ("qlength", Default "1024"); ("mtu", Default "1500"); ("tun", Nothing); ("lbshm", Nothing);
            ("reassembler", Default "0"); ("promiscuous_ping", Default "no"); ("notargets_fwmark", Default "-1"); ("nolb_fwmark", Default "-1");
            ("hash_mode", Default "1"); ("ft_shm", Default "ftshm"); ("ft_size", Default "500"); ("ft_buckets", Default "500"); ("ft_frag", Default "100");
            ("ft_ttl", Default "200"); ("trace_address", Default "unix:nfqlb-trace")]);
  (configOpts, [("shm", Default "nfqlb"); ("index", Nothing)]);
  (initOpts, [("shm", Default "nfqlb"); ("ownfw", Default "0"); ("N", Default "32"); ("M", Default "997")]);
  (deleteOpts, [("shm", Needed)]);
  (showOpts, [("shm", Default "nfqlb")]);
  (statsOpts, [("ft_shm", Default "ftshm")]);
  (fwmarkOpts, [("shm", Nothing); ("proto", Nothing); ("src", Needed); ("dst", Needed); ("hash_mode", Default "1")]);
  (flowSetOpts, [("name", Needed); ("target", Needed); ("prio", Nothing); ("protocols", Nothing); ("dsts", Nothing); ("srcs", Nothing);
            ("dports", Nothing); ("sports", Nothing); ("match", Nothing); ("udpencap", Nothing)]);
  (nameOpts, [("name", Needed)]);
  (listOpts, [("name", Nothing)]);
  (traceOpts, [("mask", Nothing); ("selection", Nothing); ("trace_address", Default "unix:nfqlb-trace")]);
  (traceSetOpts, [("name", Needed); ("protocols", Nothing); ("dsts", Nothing); ("srcs", Nothing); ("dports", Nothing); ("sports", Nothing); ("match", Nothing)]);
  (xlbOpts, [("tshm", Default "nfqlb"); ("queue", Default "2"); ("qlength", Default "1024")])
]%string.
(** The option with this name is on the line. *)
Definition on_line (opts : list opt) (its : list item) (n : string) : Prop :=
  exists it i o, In it its /\ znth opts i = Some o /\ p_name o = str n /\ mentions opts it i.
