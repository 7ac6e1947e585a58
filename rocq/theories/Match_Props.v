(** C38-C40 and the matcher part of C18: byte matches. *)
From Coq Require Import String.
From Verif Require Import Base Cstr_Model IpKey_Spec Rangeset_Spec Match_Model Match_Spec Match_Proofs.

(** C38.  A match made from the texts of expressions (numbers without leading
    zeros, at most 32 bits, mask not 0, at most 64 characters) accepts a
    packet exactly when the expressions for its protocol hold.  Covered: IPv4,
    and IPv6 without extension headers, not fragmented, with at least one byte
    after the layer-4 header; the _partial is for the rest, see the
    refutations. *)
Theorem C38_match_partial : forall ss es,
  Forall2 denotes ss es -> Forall expr_ok es -> Forall (fun e => e_mask e <> Some 0) es ->
  Forall (fun s => zlen s <= 64) ss ->
  exists m, add_texts matchCreate ss = Ok (inr m) /\
    forall eth data proto src dst l4 l4arg,
      l4_packet eth data proto src dst l4 -> ext_type proto = false -> complete_plus data proto l4 ->
      (proto = 17 -> l4arg <> 132) ->
      exists b, matchMatches (Some m) eth l4arg data = Ok b /\ (b = true <-> accepts es proto data l4).
Proof.
  intros ss es D K M L. destruct (match_packet ss es D K M L) as (m & A & B & _). exists m. split; [exact A|].
  intros eth data proto src dst l4 l4arg P X C Q. unfold complete_plus in C.
  apply B; auto. eapply l4_found; eauto. pose proof (header_size_bound proto). Lia.lia.
Qed.
Print Assumptions C38_match_partial.

(** The SCTP packet inside a UDP packet is the one compared. *)
Theorem C38_encapsulated_partial : forall ss es,
  Forall2 denotes ss es -> Forall expr_ok es -> Forall (fun e => e_mask e <> Some 0) es ->
  Forall (fun s => zlen s <= 64) ss ->
  exists m, add_texts matchCreate ss = Ok (inr m) /\
    forall eth data src dst l4,
      l4_packet eth data 17 src dst l4 -> complete_plus data 132 (l4 + 8) ->
      exists b, matchMatches (Some m) eth 132 data = Ok b /\ (b = true <-> accepts es 132 data (l4 + 8)).
Proof.
  intros ss es D K M L. destruct (match_packet ss es D K M L) as (m & A & _ & B). exists m. split; [exact A|].
  intros eth data src dst l4 P C. unfold complete_plus in C. change (header_size 132) with 12 in C.
  apply B; [|Lia.lia]. eapply l4_found; eauto. Lia.lia.
Qed.
Print Assumptions C38_encapsulated_partial.

(** First fragments over IPv4 are compared like whole packets. *)
Theorem C38_ipv4_first_fragment : forall ss es,
  Forall2 denotes ss es -> Forall expr_ok es -> Forall (fun e => e_mask e <> Some 0) es ->
  Forall (fun s => zlen s <= 64) ss ->
  exists m, add_texts matchCreate ss = Ok (inr m) /\
    forall data proto s d id hl l4arg,
      ipv4_fragment data true s d id -> ipv4_header data 0 hl proto s d -> complete_plus data proto hl ->
      (proto = 17 -> l4arg <> 132) ->
      exists b, matchMatches (Some m) ETH_IP l4arg data = Ok b /\ (b = true <-> accepts es proto data hl).
Proof.
  intros ss es D K M L. destruct (match_packet ss es D K M L) as (m & A & B & _). exists m. split; [exact A|].
  intros data proto s d id hl l4arg F H C Q. apply B; auto. eapply ipv4_first_found; eauto.
Qed.
Print Assumptions C38_ipv4_first_fragment.

(** Over IPv6 they are never accepted, whatever the expressions and the
    packet say. *)
Theorem C38_ipv6_first_fragment_refuted : forall m data src dst id nxt l4arg,
  m <> [] -> ipv6_fragment data true src dst id nxt ->
  matchMatches (Some m) ETH_IPV6 l4arg data = Ok false.
Proof. exact ipv6_first_fragment. Qed.
Print Assumptions C38_ipv6_first_fragment_refuted.

(** Nor are packets with an IPv6 options or routing header of 8 bytes
    (length field 0), e.g. a hop-by-hop header with a router alert. *)
Theorem C38_ipv6_options_refuted : forall m data src dst h n l4arg,
  m <> [] -> ipv6_header data 0 h src dst -> h = 0 \/ h = 43 \/ h = 60 -> at_ data 40 [n; 0] ->
  matchMatches (Some m) ETH_IPV6 l4arg data = Ok false.
Proof. exact ipv6_short_option. Qed.
Print Assumptions C38_ipv6_options_refuted.

(** C18, matcher: a packet that ends with its complete layer-4 header (an
    empty TCP segment, an empty UDP datagram) is never accepted. *)
Theorem C18_match_header_only_refuted : forall m eth data proto src dst l4 l4arg,
  m <> [] -> l4_packet eth data proto src dst l4 -> is_l4proto proto ->
  l4 + header_size proto = zlen data ->
  matchMatches (Some m) eth l4arg data = Ok false.
Proof. exact header_only. Qed.
Print Assumptions C18_match_header_only_refuted.

(** C39.  An accepted expression lies in the header, unless the sum of
    offset and length wraps around 2^32. *)
Theorem C39_accepted_in_header_partial : forall s i,
  matchParse s = Ok (inr i) -> no_wrap i ->
  0 <= i_offset i /\ 0 < i_nbytes i /\ i_offset i + i_nbytes i <= header_size (i_proto i).
Proof. exact stored_header. Qed.
Print Assumptions C39_accepted_in_header_partial.

(** Then no packet, of whatever bytes, makes the evaluation read outside of
    it or run forever. *)
Theorem C39_evaluation_safe_partial : forall ss m eth l4 data,
  add_texts matchCreate ss = Ok (inr m) -> Forall no_wrap m ->
  Forall (fun b => 0 <= b < 256) data -> exists b, matchMatches (Some m) eth l4 data = Ok b.
Proof. exact stored_eval. Qed.
Print Assumptions C39_evaluation_safe_partial.

(** Reading an expression is safe for every text. *)
Theorem C39_parse_safe : forall s, exists r, matchParse s = Ok r.
Proof. exact matchParse_total. Qed.
Print Assumptions C39_parse_safe.

(** The wrap-around: this expression is accepted and every TCP packet makes
    its evaluation read 4 GiB behind the header. *)
Theorem C39_offset_wraps_refuted :
  exists i, matchParse (str "tcp[4294967295:1]=0") = Ok (inr i) /\
    forall eth data s d l4, l4_packet eth data 6 s d l4 -> complete_plus data 6 l4 -> zlen data <= 65535 ->
      matchMatches (Some [i]) eth 6 data = UB.
Proof. eexists. split; [exact wrap_accepted|exact wrap_reads]. Qed.
Print Assumptions C39_offset_wraps_refuted.

(** C40.  What is accepted is what the syntax says. *)
Theorem C40_syntax : forall s,
  (forall i, matchParse s = Ok (inr i) -> shape s /\ zlen s <= 64) /\
  (shape s -> zlen s <= 64 ->
   matchParse s = Ok (inl "Out of bounds"%string) \/ exists i, matchParse s = Ok (inr i)).
Proof. intros s. split; [exact (parse_shape s)|exact (shape_parse s)]. Qed.
Print Assumptions C40_syntax.

(** Numbers without leading zeros below 2^32 are read as what they are. *)
Theorem C40_numbers_partial : forall s e, denotes s e -> expr_ok e -> zlen s <= 64 ->
  exists i, matchParse s = Ok (inr i) /\
    i_proto i = e_proto e /\ i_offset i = e_off e /\ i_nbytes i = e_n e /\ i_value i = e_value e /\
    (e_mask e = Some (i_mask i) \/ e_mask e = None /\ i_mask i = 0).
Proof.
  intros s e D K L. exists (item_of e). split; [exact (parse_denotes s e D K L)|]. unfold item_of. cbn.
  destruct (e_mask e); auto 10.
Qed.
Print Assumptions C40_numbers_partial.

(** Printing any accepted match never writes outside of the buffer, tells
    when it did not fit, and else gives texts separated by commas which read
    back are the same match. *)
Theorem C40_printed_form_partial : forall ss m buf,
  add_texts matchCreate ss = Ok (inr m) -> Forall no_wrap m -> 0 < zlen buf ->
  exists b rc ts, matchString m buf = Ok (b, rc) /\ zlen b = zlen buf /\
    (rc = 0 <-> zlen (commas ts) < zlen buf) /\ (rc = 0 -> cstring b = commas ts) /\
    Forall (fun t => Forall (fun c => c <> 44) t) ts /\ add_texts matchCreate ts = Ok (inr m).
Proof. exact stored_print. Qed.
Print Assumptions C40_printed_form_partial.

(** Leading zeros make a number octal (or 0 when there is an 8 or 9). *)
Theorem C40_leading_zero_refuted :
  exists i j, matchParse (str "tcp[2:2]=0100") = Ok (inr i) /\ i_value i = 64 /\
              matchParse (str "tcp[2:2]=089") = Ok (inr j) /\ i_value j = 0.
Proof. do 2 eexists. split; [vm_compute; reflexivity|]. split; [reflexivity|]. split; [vm_compute; reflexivity|reflexivity]. Qed.
Print Assumptions C40_leading_zero_refuted.

(** Larger numbers are accepted and lose their upper bits. *)
Theorem C40_large_number_refuted :
  exists i, matchParse (str "tcp[4294967298:2]=4294967301") = Ok (inr i) /\ i_offset i = 2 /\ i_value i = 5.
Proof. eexists. split; [vm_compute; reflexivity|split; reflexivity]. Qed.
Print Assumptions C40_large_number_refuted.

(** A mask of 0 is not applied: every TCP packet satisfies the expression,
    the ones with a first byte other than 0 are not accepted. *)
Theorem C40_mask_zero_refuted : forall eth data src dst l4 b,
  l4_packet eth data 6 src dst l4 -> complete_plus data 6 l4 -> at_ data l4 [b] -> b <> 0 ->
  exists m e, add_texts matchCreate [str "tcp[0:1]&0x0=0"] = Ok (inr m) /\
    denotes (str "tcp[0:1]&0x0=0") e /\ accepts [e] 6 data l4 /\ matchMatches (Some m) eth 6 data = Ok false.
Proof. exact mask_zero. Qed.
Print Assumptions C40_mask_zero_refuted.

(** The hypotheses can be met. *)
Definition ex_tcp : list Z :=
  [69;0;0;41; 0;0;64;0; 64;6;0;0; 10;0;0;1; 10;0;0;2;
   31;144;0;80; 0;0;0;1; 0;0;0;0; 80;2;0;0; 0;0;0;0; 7].
Definition ex_expr : expr := mkExpr 6 2 2 (Some 255) 80.

Example C38_ex : denotes (str "tcp[2 :2] & 0xff= 80") ex_expr /\ expr_ok ex_expr /\ e_mask ex_expr <> Some 0 /\
  l4_packet ETH_IP ex_tcp 6 (mapped [10;0;0;1]) (mapped [10;0;0;2]) 20 /\ complete_plus ex_tcp 6 20 /\
  accepts [ex_expr] 6 ex_tcp 20.
Proof.
  assert (D2 : is_dec [50] 2) by (split; [congruence|]; split; [repeat constructor; Lia.lia|]; split; [reflexivity|cbn; discriminate]).
  split; [|split; [|split; [|split; [|split]]]].
  - exists (str "tcp"), (str "2"), (str " "), [], (str "2"), (str " & 0xff"), [], (str " "), (str "80").
    assert (B0 : blanks []) by (exists 0%nat; auto). assert (B1 : blanks (str " ")) by (exists 1%nat; auto).
    split; [reflexivity|]. split; [right; left; auto|]. split; [exact D2|]. split; [exact D2|].
    split; [|split; [left|auto]].
    + exists (str " "), (str " "), (str "ff"). split; auto. split; auto. split; [|reflexivity].
      split; [cbn; congruence|]. split; [|reflexivity]. cbn. repeat constructor; Lia.lia.
    + change (is_dec [56; 48] 80). split; [congruence|]. split; [repeat constructor; Lia.lia|]. split; [reflexivity|cbn; discriminate].
  - unfold expr_ok, is_l4proto, is_u32, UINT_MAX. cbn. repeat split; auto; try Lia.lia; injection H as <-; Lia.lia.
  - cbn. congruence.
  - left. split; auto. exists [10;0;0;1], [10;0;0;2]. split; auto. split; auto. unfold ipv4_header, ipv4_frag, at_.
    split; [|].
    + split; [reflexivity|]. split; [reflexivity|]. split; [exists 69; cbn; repeat split; Lia.lia|]. cbn. repeat split; Lia.lia.
    + exists 64, 0. cbn. repeat split; Lia.lia.
  - vm_compute. reflexivity.
  - intros e [<-|[]] _. exists [0; 80]. unfold at_. cbn. repeat split; Lia.lia.
Qed.

Example C39_ex : exists m, add_texts matchCreate [str "tcp[2:2]=80"; str "udp[0:4]&0xff=0x10"] = Ok (inr m) /\ Forall no_wrap m.
Proof. eexists. split; [vm_compute; reflexivity|]. repeat constructor. Qed.

Example C18_match_ex :
  let p := [69;0;0;28; 0;0;64;0; 64;17;0;0; 10;0;0;1; 10;0;0;2; 0;1;0;2;0;8;0;0] in
  l4_packet ETH_IP p 17 (mapped [10;0;0;1]) (mapped [10;0;0;2]) 20 /\ 20 + header_size 17 = zlen p.
Proof.
  split; [|reflexivity]. left. split; auto. exists [10;0;0;1], [10;0;0;2]. split; auto. split; auto. unfold ipv4_header, ipv4_frag, at_.
  split; [|].
  - split; [reflexivity|]. split; [reflexivity|]. split; [exists 69; cbn; repeat split; Lia.lia|]. cbn. repeat split; Lia.lia.
  - exists 64, 0. cbn. repeat split; Lia.lia.
Qed.

Example C38_ipv6_first_fragment_ex :
  let a := repeat 1 16 in let b := repeat 2 16 in
  let p := [96;0;0;0; 0;16;44;64] ++ a ++ b ++ [17;0;0;1; 0;0;0;9] ++ [0;1;0;2;0;8;0;0] in
  ipv6_fragment p true a b [0;0;0;9] 17.
Proof.
  cbv zeta. unfold ipv6_fragment, ipv6_header, at_. split; [reflexivity|].
  split; [split; [reflexivity|]; split; [reflexivity|]; cbn; repeat split; Lia.lia|].
  split; [cbn; repeat split; Lia.lia|]. split; [cbn; repeat split; Lia.lia|].
  exists 0, 1. cbn. repeat split; Lia.lia.
Qed.
