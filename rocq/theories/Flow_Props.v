(** C33-C37, C41, C61: flows. *)
From Coq Require Import String Sorted.
From Verif Require Import Base Cstr_Model Util_Spec Rangeset_Spec IpKey_Model IpKey_Spec Match_Model Match_Spec
  Flow_Model Flow_Spec Cidr_Proofs Flow_Proofs Flow2_Proofs Flow3_Proofs.

(** ** C33 *)

(** The text "a/p" matches the addresses that agree with a in the first p
    bits; a.b.c.d/p only (mapped) IPv4 addresses. *)
Theorem C33_prefix : forall L s c, libc_ok L -> cidr_text L s c ->
  exists cd, parseCidr L s = Ok (Some cd) /\
    forall adr, bytes 16 adr -> (addrInCidr cd adr = true <-> in_cidr c adr).
Proof. exact cidr_ok. Qed.
Print Assumptions C33_prefix.

(** A list matches if a member does; no list matches everything. *)
Theorem C33_list : forall L ss cs, libc_ok L -> given (cidr_texts L) ss cs ->
  exists l, ifgiven "" ss (parseCidrs L) = Ok (inr l) /\
    forall adr, bytes 16 adr ->
      (inCidrs l adr = true <-> all_or cs (fun l => exists c, In c l /\ in_cidr c adr)).
Proof. intros L ss cs. apply given_cidrs. Qed.
Print Assumptions C33_list.

Ltac num := repeat split; try discriminate; cbn; repeat (apply Forall_cons; [Lia.lia|]); apply Forall_nil.
Example C33_ex : libc_ok ex_lib /\
  cidr_text ex_lib (str "10.0.0.0/9") (V4 [10; 0; 0; 0] 9) /\
  cidr_text ex_lib (str "2001:db8::/33") (V6 ex_doc 33) /\
  cidr_text ex_lib (str "::/0") (V6 (repeat 0 16) 0) /\
  omap (option_map (fun c => map (addrInCidr c)
         [mapped [10; 127; 0; 0]; mapped [10; 128; 0; 0]; mapped [11; 0; 0; 0]; 1 :: tl (mapped [10; 0; 0; 0])]))
    (parseCidr ex_lib (str "10.0.0.0/9")) = Ok (Some [true; false; false; false]).
Proof.
  split; [exact ex_lib_ok|]. split; [|split; [|split; [|vm_compute; reflexivity]]].
  - exists (str "10.0.0.0"), (str "9"). split; [reflexivity|].
    split; [|split; [num|Lia.lia]].
    exists (str "10"), (str "0"), (str "0"), (str "0"), 10, 0, 0, 0.
    split; [reflexivity|]. split; [reflexivity|]. split; [num|]. split; [num|]. split; [num|]. split; [num|]. Lia.lia.
  - exists (str "2001:db8::"), (str "33"). split; [reflexivity|]. split; [cbn; auto 10|].
    split; [cbn; intuition discriminate|]. split; [reflexivity|]. split; [num|split; [Lia.lia|reflexivity]].
  - exists (str "::"), (str "0"). split; [reflexivity|]. split; [cbn; auto 10|].
    split; [cbn; intuition discriminate|]. split; [reflexivity|]. split; [num|split; [Lia.lia|reflexivity]].
Qed.

(** ** C34 *)

(** Valid lengths are accepted and printed as they were given (in IPv6
    notation: 96 more for IPv4). *)
Theorem C34_valid_lengths : forall L s c, libc_ok L -> cidr_text L s c ->
  exists cd, parseCidr L s = Ok (Some cd) /\ printedLength cd = shown c.
Proof. exact printed_ok. Qed.
Print Assumptions C34_valid_lengths.

(** Larger decimal numbers of 32 bits are refused for IPv6; for IPv4 those
    that do not wrap around 2^32 when 96 is added. *)
Theorem C34_ipv6_refused_partial : forall L a d n,
  In 58 a -> ~ In 47 a -> is_dec d n -> 128 < n <= UINT_MAX -> zlen (a ++ str "/" ++ d) < 128 ->
  parseCidr L (a ++ str "/" ++ d) = Ok None.
Proof. exact refused_v6. Qed.
Print Assumptions C34_ipv6_refused_partial.

Theorem C34_ipv4_refused_partial : forall L a d n,
  ~ In 58 a -> ~ In 47 a -> is_dec d n -> 32 < n < UINT_MAX - 95 -> zlen (a ++ str "/" ++ d) <= 120 ->
  parseCidr L (a ++ str "/" ++ d) = Ok None.
Proof. exact refused_v4. Qed.
Print Assumptions C34_ipv4_refused_partial.

(** a.b.c.d/4294967200 is accepted and matches everything, IPv6 included. *)
Theorem C34_length_wraps_refuted : forall L a q, libc_ok L -> is_quad a q ->
  exists cd, parseCidr L (a ++ str "/4294967200") = Ok (Some cd) /\
    forall adr, bytes 16 adr -> addrInCidr cd adr = true.
Proof. exact wrapped_length. Qed.
Print Assumptions C34_length_wraps_refuted.

(** Text after the length is not noticed. *)
Theorem C34_garbage_refuted : forall L a q, libc_ok L -> is_quad a q ->
  exists cd, parseCidr L (a ++ str "/24x") = Ok (Some cd).
Proof. exact garbage_length. Qed.
Print Assumptions C34_garbage_refuted.

(** "10/8" is accepted (as ::ffff:10 with /104), but matches no IPv4
    address. *)
Theorem C34_bare_number_refuted : forall L,
  pton L (str "::ffff:10") = Some [0; 0; 0; 0; 0; 0; 0; 0; 0; 0; 0; 0; 255; 255; 0; 16] ->
  exists cd, parseCidr L (str "10/8") = Ok (Some cd) /\
    forall a, bytes 4 a -> addrInCidr cd (mapped a) = false.
Proof. exact bare_number. Qed.
Print Assumptions C34_bare_number_refuted.

Example C34_ex :
  pton ex_lib (str "::ffff:10") = Some [0; 0; 0; 0; 0; 0; 0; 0; 0; 0; 0; 0; 255; 255; 0; 16] /\
  map (fun s => omap (option_map printedLength) (parseCidr ex_lib (str s)))
    ["10.1.2.3/0"; "10.1.2.3/32"; "10.1.2.3/33"; "::/0"; "::/64"; "::/65"; "::/128"; "::/129"; "::"; "10.1.2.3/-1"]%string =
  map Ok [Some 96; Some 128; None; Some 0; Some 64; Some 65; Some 128; None; None; Some 95].
Proof. split; reflexivity. Qed.

(** ** C35 *)

(** After any history of definitions and deletions, for every packet and
    key, with or without promiscuous ping: the target is the one of a flow
    that matches, no matching flow with a target has a higher priority, and
    there is no target only if no flow with a target matches. *)
Theorem C35_any_packet : forall L ops set ans ping k eth pkt u r u',
  libc_ok L -> run L [] ops = Ok (set, ans) ->
  flowLookup ping set k eth pkt u = Ok (r, u') ->
  (r <> 0 -> exists f, In f set /\ f_ref f = r /\ (exists v, flowMatch ping k f eth pkt = Ok v /\ v <> NoMatch) /\
     forall g v, In g set -> f_ref g <> 0 -> flowMatch ping k g eth pkt = Ok v -> v <> NoMatch ->
       f_priority g <= f_priority f) /\
  (r = 0 -> forall g, In g set -> exists v, flowMatch ping k g eth pkt = Ok v /\ (v <> NoMatch -> f_ref g = 0)).
Proof. exact any_packet. Qed.
Print Assumptions C35_any_packet.

(** What matching means: when the definitions in force say the rules R, the
    target of a TCP, UDP or SCTP packet (not fragmented, no IPv6 extension
    headers) is the one of a flow of highest priority whose rule accepts the
    packet.  With byte matches the layer-4 header must be complete and
    followed by a byte (see C38). *)
Theorem C35_rules : forall L ops set ans (R : chars -> rule) fuel eth data fl l4 u,
  libc_ok L -> run L [] ops = Ok (set, ans) ->
  (forall n a, current ops ans n = Some a -> means L a (R n)) ->
  flow_ok fl -> l4_packet eth data (fl_proto fl) (fl_src fl) (fl_dst fl) l4 ->
  ports_at data l4 (fl_sport fl) (fl_dport fl) ->
  (forall n a, current ops ans n = Some a -> r_match (R n) <> None -> complete_plus data (fl_proto fl) l4) ->
  exists k r u', getHashKey (S fuel) 0 eth data = Ok (Some (0, k, None)) /\
    flowLookup false set k eth (Some data) u = Ok (r, u') /\
    (r <> 0 -> exists n a, current ops ans n = Some a /\ a_ref a = r /\ accepts_packet (R n) fl data l4 /\
       forall n' a', current ops ans n' = Some a' -> a_ref a' <> 0 -> accepts_packet (R n') fl data l4 ->
         a_priority a' <= a_priority a) /\
    (r = 0 -> forall n' a', current ops ans n' = Some a' -> accepts_packet (R n') fl data l4 -> a_ref a' = 0).
Proof. exact classification. Qed.
Print Assumptions C35_rules.

(** A history with a replacement, a refused definition and a deletion; a
    TCP packet from 10.0.0.1:1000 to 10.0.0.2:80. *)
Definition ex_packet : list Z :=
  [69; 0; 0; 40; 0; 0; 0; 0; 64; 6; 0; 0; 10; 0; 0; 1; 10; 0; 0; 2;
   3; 232; 0; 80; 0; 0; 0; 0; 0; 0; 0; 0; 80; 2; 0; 0; 0; 0; 0; 0; 7].
Definition ex_fl : flow := mkFlow (mapped [10; 0; 0; 1]) (mapped [10; 0; 0; 2]) 6 [3; 232] [0; 80].
Definition ex_web (prio ref : Z) : fargs :=
  mkArgs (str "web") prio ref (Some [str "TCP"]) (Some (str "80,443")) None (Some [str "10.0.0.0/9"]) None
    (Some [str "tcp[2:2] & 0xff = 80"]) 0.
Definition ex_ops : list op :=
  [Define (ex_web 3 7); Define (plain_args (str "all") 1 9); Define (ex_web 5 8);
   Define (mkArgs (str "all") 10 4 (Some [str "gre"]) None None None None None 0);
   Define (plain_args (str "gone") 100 6); Delete (str "gone"); Delete (str "gone")].
Definition ex_rules (n : chars) : rule :=
  if streq n (str "web") then
    mkRule (Some [6]) (Some [(80, 80); (443, 443)]) None (Some [V4 [10; 0; 0; 0] 9]) None
      (Some [mkExpr 6 2 2 (Some 255) 80])
  else mkRule None None None None None None.


Definition ex_answers : list answer :=
  [Defined None; Defined None; Defined None; Defined (Some "Invalid protocols"%string);
   Defined None; Deleted (Some (6, 0)); Deleted None].
Example C35_ex :
  (exists set, run ex_lib [] ex_ops = Ok (set, ex_answers) /\ map f_name set = [str "web"; str "all"] /\
     exists k, getHashKey 1 0 ETH_IP ex_packet = Ok (Some (0, k, None)) /\
       flowLookup false set k ETH_IP (Some ex_packet) 0 = Ok (8, 0)) /\
  (forall n a, current ex_ops ex_answers n = Some a -> means ex_lib a (ex_rules n)) /\
  flow_ok ex_fl /\ l4_packet ETH_IP ex_packet 6 (fl_src ex_fl) (fl_dst ex_fl) 20 /\
  ports_at ex_packet 20 (fl_sport ex_fl) (fl_dport ex_fl) /\ complete_plus ex_packet 6 20 /\
  accepts_packet (ex_rules (str "web")) ex_fl ex_packet 20.
Proof.
  split; [|split; [|split; [|split; [|split; [|split]]]]].
  - eexists. split; [vm_compute; reflexivity|]. split; [vm_compute; reflexivity|].
    eexists. split; [vm_compute; reflexivity|]. vm_compute; reflexivity.
  - intros n a. unfold current, ex_ops, ex_answers. cbn [in_force a_name ex_web plain_args].
    destruct (streq n (str "gone")); [discriminate|].
    unfold ex_rules. destruct (streq n (str "web")).
    + intros H. assert (a = ex_web 5 8) as -> by congruence. unfold means. cbn [ex_web a_name a_protocols a_dports a_sports a_dsts a_srcs a_match
        r_protocols r_dports r_sports r_dsts r_srcs r_match given].
      split; [reflexivity|]. split; [|split; [|split; [exact I|split; [|split; [exact I|]]]]].
      * constructor; [|constructor]. exists (str "tcp"). split; [|right; left; auto].
        cbn. repeat (constructor; [right; Lia.lia|]). constructor.
      * split; [cbn; Lia.lia|]. split; [unfold acceptable; repeat (apply Forall_cons; [cbn; Lia.lia|]); apply Forall_nil|].
        exists [str "80"; str "443"]. split.
        -- apply (pieces_cons [44; 32] [] (str "80") 44 (str "443") [str "443"]);
             try (cbn; intuition (subst; discriminate)).
           apply (pieces_last [44; 32] [] (str "443")); cbn; intuition (subst; discriminate).
        -- constructor; [exists (str "80"); split; [num|left; auto]|].
           constructor; [exists (str "443"); split; [num|left; auto]|constructor].
      * split; [cbn; Lia.lia|]. constructor; [|constructor]. apply C33_ex.
      * repeat split; [| | |repeat constructor; vm_compute; discriminate].
        -- constructor; [|constructor].
           exists (str "tcp"), (str "2"), [], [], (str "2"), (str " & 0xff"), (str " "), (str " "), (str "80").
           assert (B0 : blanks []) by (exists 0%nat; auto). assert (B1 : blanks (str " ")) by (exists 1%nat; auto).
           split; [reflexivity|]. split; [right; left; auto|]. split; [num|]. split; [num|]. split; [|split; [left; num|auto]].
           exists (str " "), (str " "), (str "ff"). split; auto. split; auto. split; [|reflexivity].
           split; [cbn; congruence|]. split; [|reflexivity]. cbn. repeat constructor; Lia.lia.
        -- constructor; [|constructor]. clear H. unfold expr_ok, is_l4proto, is_u32, UINT_MAX. cbn.
           repeat split; auto; try Lia.lia; injection H as <-; Lia.lia.
        -- constructor; [cbn; congruence|constructor].
    + destruct (streq n (str "all")); [|discriminate]. intros H. assert (a = plain_args (str "all") 1 9) as -> by congruence.
      unfold means. cbn. repeat split; auto.
  - unfold flow_ok, ex_fl, bytes, mapped. cbn. repeat split; auto; repeat (apply Forall_cons; [Lia.lia|]); apply Forall_nil.
  - left. split; auto. exists [10;0;0;1], [10;0;0;2]. split; auto. split; auto. unfold ipv4_header, ipv4_frag, at_.
    split; [|].
    + split; [reflexivity|]. split; [reflexivity|]. split; [exists 69; cbn; repeat split; Lia.lia|]. cbn. repeat split; Lia.lia.
    + exists 0, 0. cbn. repeat split; Lia.lia.
  - unfold ports_at, at_. cbn. repeat split; Lia.lia.
  - vm_compute. reflexivity.
  - unfold accepts_packet, accepts_addr, ex_rules, ex_fl. change (streq (str "web") (str "web")) with true.
    cbn [all_or r_protocols r_dports r_sports r_dsts r_srcs r_match fl_src fl_dst fl_proto fl_sport fl_dport].
    split; [split; [|exact I]|split; [left; auto|split; [|split; [exact I|]]]].
    + eexists. split; [left; auto|]. exists [10; 0; 0; 2]. split; [split; [reflexivity|repeat (apply Forall_cons; [Lia.lia|]); apply Forall_nil]|].
      split; reflexivity.
    + exists 80, 80. split; [left; auto|]. vm_compute. split; discriminate.
    + intros e [<-|[]] _. exists [0; 80]. unfold at_. cbn. repeat split; Lia.lia.
Qed.

(** ** C36 *)

(** The set is a map from names to definitions: one flow per name, made of
    the last definition that was accepted and not deleted; flowDelete and
    flowLookupName answer accordingly. *)
Theorem C36_map : forall L ops set ans, libc_ok L -> run L [] ops = Ok (set, ans) ->
  NoDup (map f_name set) /\ deletions_ok (fun _ => None) ops ans /\
  (forall n, match findName set n with None => None | Some f => Some (f_ref f, f_udpencap f) end =
             match current ops ans n with None => None | Some a => Some (a_ref a, a_udpencap a) end) /\
  (forall f, In f set <-> exists a, current ops ans (a_name a) = Some a /\ makeFlow L a = Ok (inr f)).
Proof. exact map_semantics. Qed.
Print Assumptions C36_map.

(** Valid definitions are not refused. *)
Theorem C36_valid_accepted : forall L ops, libc_ok L ->
  forall set set' ans, run L set ops = Ok (set', ans) -> Forall2 (answered L) ops ans.
Proof. exact valid_accepted. Qed.
Print Assumptions C36_valid_accepted.

(** Names of 1024 or more characters, unknown protocols, address texts without
    '/' and lists of none or more than 32 addresses are refused, and a refused
    definition changes nothing. *)
Theorem C36_invalid_refused : forall L set a r set', invalid a -> flowDefine L set a = Ok (r, set') -> r <> None /\ set' = set.
Proof. exact invalid_refused. Qed.
Print Assumptions C36_invalid_refused.
Example C36_invalid_ex : invalid (mkArgs (str "x") 0 1 (Some [str "tcp"; str "gre"]) None None None None None 0) /\
  invalid (mkArgs (str "x") 0 1 None None None (Some [str "10.0.0.1"]) None None 0).
Proof.
  split.
  - right; left. exists [str "tcp"; str "gre"], (str "gre"). split; [reflexivity|]. split; [right; left; reflexivity|].
    intros q (t & A & P). unfold proto_name in P. unfold any_case in A.
    destruct P as [(_ & ->)|[(_ & ->)|(_ & ->)]]; inversion A as [|? ? ? ? B]; subst; try (cbn in *; Lia.lia).
  - right; right. exists [str "10.0.0.1"]. split; [auto|]. right; right. exists (str "10.0.0.1"). split; [left; auto|].
    cbn. intros H. repeat (destruct H as [H|H]; [discriminate|]). destruct H.
Qed.

Example C36_ex : current ex_ops ex_answers (str "web") = Some (ex_web 5 8) /\
  current ex_ops ex_answers (str "all") = Some (plain_args (str "all") 1 9) /\
  current ex_ops ex_answers (str "gone") = None.
Proof. repeat split; reflexivity. Qed.

(** ** C37 *)

(** When the differences between the priorities used are of type int, and
    address texts fit the buffer, every history is executed and leaves the
    flows ordered by decreasing priority. *)
Theorem C37_order_partial : forall L ops, libc_ok L -> Forall safe_op ops -> no_overflow (priorities ops) ->
  exists set ans, run L [] ops = Ok (set, ans) /\ StronglySorted (fun p q => q <= p) (map f_priority set).
Proof. exact ordered_history. Qed.
Print Assumptions C37_order_partial.

(** Not for all priorities: INT_MAX and -1 overflow the comparison. *)
Theorem C37_overflow_refuted : forall L, libc_ok L ->
  run L [] [Define (plain_args (str "a") 2147483647 1); Define (plain_args (str "b") (-1) 2)] = UB.
Proof. exact overflow_ub. Qed.
Print Assumptions C37_overflow_refuted.

Example C37_ex : Forall safe_op ex_ops /\ no_overflow (priorities ex_ops).
Proof.
  split; [|intros p q; cbn; unfold is_int; Lia.lia].
  repeat constructor; cbn; intuition discriminate.
Qed.

(** ** C41 *)

(** With promiscuous ping an echo request is taken by a flow of highest
    priority whose addresses fit, whatever its protocols, ports and byte
    matches. *)
Theorem C41_echo_requests : forall L ops set ans (R : chars -> rule) fuel eth data src dst u,
  libc_ok L -> run L [] ops = Ok (set, ans) ->
  (forall n a, current ops ans n = Some a -> means L a (R n)) ->
  echo_request eth data src dst -> bytes 16 src -> bytes 16 dst ->
  exists k r u', getHashKey (S fuel) 0 eth data = Ok (Some (16, k, None)) /\
    flowLookup true set k eth (Some data) u = Ok (r, u') /\
    (r <> 0 -> exists n a, current ops ans n = Some a /\ a_ref a = r /\ accepts_addr (R n) src dst /\
       forall n' a', current ops ans n' = Some a' -> a_ref a' <> 0 -> accepts_addr (R n') src dst ->
         a_priority a' <= a_priority a) /\
    (r = 0 -> forall n' a', current ops ans n' = Some a' -> accepts_addr (R n') src dst -> a_ref a' = 0).
Proof. exact echo_classification. Qed.
Print Assumptions C41_echo_requests.

(** Packets of other protocols are not affected. *)
Theorem C41_other_protocols_partial : forall set k eth pkt u, kproto k <> 1 -> kproto k <> 58 ->
  flowLookup true set k eth pkt u = flowLookup false set k eth pkt u.
Proof. exact ping_others. Qed.
Print Assumptions C41_other_protocols_partial.

(** But other ICMP messages are: an echo reply goes to a flow for TCP only. *)
Theorem C41_echo_reply_refuted : exists set ans k,
  run ex_lib [] [ex_tcp_only] = Ok (set, ans) /\
  icmp_message ETH_IP ex_echo_reply 0 (mapped [10; 0; 0; 1]) (mapped [10; 0; 0; 2]) /\
  getHashKey 1 0 ETH_IP ex_echo_reply = Ok (Some (16, k, None)) /\
  flowLookup true set k ETH_IP (Some ex_echo_reply) 0 = Ok (5, 0) /\
  flowLookup false set k ETH_IP (Some ex_echo_reply) 0 = Ok (0, 0).
Proof. exact echo_reply_taken. Qed.
Print Assumptions C41_echo_reply_refuted.

Definition ex_ping : list Z :=
  [69; 0; 0; 28; 0; 0; 0; 0; 64; 1; 0; 0; 10; 0; 0; 1; 10; 0; 0; 2; 8; 0; 0; 0; 0; 1; 0; 1].
Example C41_ex : echo_request ETH_IP ex_ping (mapped [10; 0; 0; 1]) (mapped [10; 0; 0; 2]) /\
  accepts_addr (ex_rules (str "web")) (mapped [10; 0; 0; 1]) (mapped [10; 0; 0; 2]) /\
  exists k, getHashKey 1 0 ETH_IP ex_ping = Ok (Some (16, k, None)) /\ kproto k = 1.
Proof.
  split; [|split].
  - left. split; auto. exists 20, [10;0;0;1], [10;0;0;2]. split; auto. split; auto. unfold ipv4_header, ipv4_frag, at_.
    split; [split; [reflexivity|]; split; [reflexivity|]; split; [exists 69; cbn; repeat split; Lia.lia|]; cbn; repeat split; Lia.lia|].
    split; [exists 0, 0; cbn; repeat split; Lia.lia|]. cbn. repeat split; Lia.lia.
  - apply C35_ex.
  - eexists. split; [vm_compute; reflexivity|]. vm_compute; reflexivity.
Qed.

(** ** C61 *)

(** Defining and deleting flows does not go wrong, whatever the texts, if
    address texts fit the buffer (128 bytes with ':') and priorities do not
    overflow: this is C37_order_partial.  Looking up any key and any packet
    does not go wrong unless a byte match was stored with a wrapped size
    (see C39). *)
Theorem C61_lookup_safe_partial : forall L ops set ans ping k eth pkt u,
  libc_ok L -> run L [] ops = Ok (set, ans) ->
  (forall f m, In f set -> f_match f = Some m -> Forall no_wrap m) ->
  (forall data, pkt = Some data -> Forall (fun b => 0 <= b < 256) data) ->
  exists r, flowLookup ping set k eth pkt u = Ok r.
Proof. exact lookup_safe. Qed.
Print Assumptions C61_lookup_safe_partial.

Theorem C61_define_safe_partial : forall L ops, libc_ok L -> Forall safe_op ops -> no_overflow (priorities ops) ->
  exists r, run L [] ops = Ok r.
Proof. intros L ops H S N. destruct (ordered_history L ops H S N) as (set & ans & E & _). eauto. Qed.
Print Assumptions C61_define_safe_partial.

(** Every longer text with a ':' overflows the buffer. *)
Theorem C61_long_cidr_refuted : forall L s, In 58 s -> 128 <= zlen s -> parseCidr L s = UB.
Proof. exact long_text_ub. Qed.
Print Assumptions C61_long_cidr_refuted.

Example C61_ex : (exists set, run ex_lib [] ex_ops = Ok (set, ex_answers) /\
    forall f m, In f set -> f_match f = Some m -> Forall no_wrap m) /\
  parseCidr ex_lib (repeat 58 128) = UB.
Proof.
  split; [|vm_compute; reflexivity]. eexists. split; [vm_compute; reflexivity|].
  intros f m [<-|[<-|[]]]; cbn; intros H; [|discriminate]. assert (H' := f_equal (fun o => match o with Some x => x | None => [] end) H).
  cbn in H'. subst m. repeat constructor; try discriminate.
Qed.
