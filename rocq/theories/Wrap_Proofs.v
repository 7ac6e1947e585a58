(** SCTP in UDP at flowlb (C79): the verdict, by the flows and the tables. *)
From Coq Require Import String.
From Verif Require Import Base Lists Cstr_Model IpKey_Model IpKey_Spec Maglev_Model Match_Spec Flow_Model Flow_Spec Flow2_Proofs Flow3_Proofs FlowLb_Model FlowLb_Spec FlowLb_Proofs FlowLb2_Proofs FlowLb5_Proofs
  Fwmark_Spec Lb_Spec Lb3_Proofs Encap_Spec Encap_Proofs.

(** There is a packet without UDP, with the same SCTP in it. *)
Ltac at_here := match goal with |- at_ (?h ++ ?r) ?o ?l =>
  split; [lia|]; split; [unfold zlen; rewrite ?app_length; cbn [length app]; lia|reflexivity] end.
Lemma native_packet eth d1 src dst l4 : l4_packet eth d1 17 src dst l4 -> 0 <= l4 + 8 <= zlen d1 ->
  exists d2 l4', l4_packet eth d2 132 src dst l4' /\ same_rest d1 (l4 + 8) d2 l4'.
Proof.
  intros P B. set (rest := skipn (Z.to_nat (l4 + 8)) d1). destruct P as [(-> & s4 & d4 & -> & -> & (S4 & D4 & _) & _)|(-> & -> & S6 & D6 & _)].
  - destruct s4 as [|a1 [|a2 [|a3 [|a4 [|]]]]]; try discriminate. destruct d4 as [|b1 [|b2 [|b3 [|b4 [|]]]]]; try discriminate.
    exists ([69; 0; 0; 0; 0; 0; 0; 0; 0; 132; 0; 0; a1; a2; a3; a4; b1; b2; b3; b4] ++ rest), 20. split.
    + left. split; [reflexivity|]. exists [a1; a2; a3; a4], [b1; b2; b3; b4]. split; [reflexivity|]. split; [reflexivity|]. split.
      * unfold ipv4_header. split; [reflexivity|]. split; [reflexivity|]. split; [exists 69; split; [at_here|reflexivity]|]. split; [lia|]. split; [at_here|]. split; at_here.
      * exists 0, 0. split; [at_here|]. split; [lia|]. split; [lia|]. split; reflexivity.
    + split; [exact B|]. split; [unfold zlen; rewrite ?app_length; cbn [length app]; lia|]. reflexivity.
  - do 16 (destruct src as [|? src]; [discriminate|]). destruct src; [|discriminate]. do 16 (destruct dst as [|? dst]; [discriminate|]). destruct dst; [|discriminate].
    match goal with |- context [l4_packet _ _ _ ?s ?d _] => exists (([96; 0; 0; 0; 0; 0; 132; 0] ++ s ++ d) ++ rest), 40 end. split.
    + right. split; [reflexivity|]. split; [reflexivity|]. unfold ipv6_header. split; [reflexivity|]. split; [reflexivity|]. split; [at_here|]. split; at_here.
    + split; [exact B|]. split; [unfold zlen; rewrite ?app_length; cbn [length app]; lia|]. reflexivity.
Qed.
Lemma ports_rest d1 o1 d2 o2 sp dp : same_rest d1 o1 d2 o2 -> ports_at d1 o1 sp dp -> ports_at d2 o2 sp dp.
Proof.
  intros (B1 & B2 & S) (L1 & L2 & A & B & Z). pose proof (zlen_skip _ d1 o1 B1) as Z1. pose proof (zlen_skip _ d2 o2 B2) as Z2. rewrite S in Z1.
  split; [exact L1|]. split; [exact L2|]. split; [|split; [|lia]].
  - rewrite <- (Z.add_0_r o1) in A. rewrite <- (Z.add_0_r o2). apply at_skip; [exact B2|lia|]. apply at_skip in A; [|exact B1|lia]. rewrite <- S. exact A.
  - apply at_skip; [exact B2|lia|]. apply at_skip in B; [|exact B1|lia]. rewrite <- S. exact B.
Qed.

Lemma encap_served h now done eth data f enc l4 sp dp s L ops ans (R : chars -> rule) :
  libc_ok L -> run L [] ops = Ok (t_set s, ans) -> (forall n a, current ops ans n = Some a -> means L a (R n)) ->
  flow_ok f -> fl_proto f = 132 -> 0 < enc -> l4_packet eth data 17 (fl_src f) (fl_dst f) l4 -> ports_at data l4 sp dp -> port_num dp = enc ->
  ports_at data (l4 + 8) (fl_sport f) (fl_dport f) -> (forall n a, current ops ans n = Some a -> r_match (R n) <> None -> l4 + 8 + 12 < zlen data) ->
  let outer := mkFlow (fl_src f) (fl_dst f) 17 sp dp in flow_ok outer ->
  (forall n a, current ops ans n = Some a -> accepts_packet (R n) outer data l4 -> a_ref a = 0 /\ a_udpencap a = enc) ->
  (exists n a, current ops ans n = Some a /\ accepts_packet (R n) outer data l4) ->
  (forall n a, current ops ans n = Some a -> a_ref a <> 0 -> accepts_packet (R n) f data (l4 + 8) ->
     exists o, deref s (a_ref a) = Some o /\ 1 <= lb_ref o < 2147483647 /\ table_ok (t_mem s (lb_region o))) ->
  exists v ev, runp (packet h now done eth data) s = Some (Verdict v, s, ev) /\
  ((exists n a o, current ops ans n = Some a /\ a_ref a <> 0 /\ accepts_packet (R n) f data (l4 + 8) /\
     (forall n' a', current ops ans n' = Some a' -> a_ref a' <> 0 -> accepts_packet (R n') f data (l4 + 8) -> a_priority a' <= a_priority a) /\
     deref s (a_ref a) = Some o /\ v = mark_or (h_notargets h) (table_mark (t_mem s (lb_region o)) (flow_hash (h_mode h) f))) \/
  v = h_nolb h /\ forall n a, current ops ans n = Some a -> accepts_packet (R n) f data (l4 + 8) -> a_ref a = 0).
Proof.
  intros HL HR HM OK PR E0 P4 PA EP PI CP outer OO HA HX HO.
  assert (LB : 0 <= l4 + 8 <= zlen data) by (destruct PI as (_ & _ & (X & Y & _) & _ & Z); lia).
  destruct (native_packet _ _ _ _ _ P4 LB) as (d2 & l4' & P4' & SR). pose proof (ports_rest _ _ _ _ _ _ SR PI) as PI'.
  assert (ZZ : zlen d2 - l4' = zlen data - (l4 + 8)).
  { destruct SR as (B1 & B2 & S). pose proof (zlen_skip _ data (l4 + 8) B1) as Z1. pose proof (zlen_skip _ d2 l4' B2) as Z2. rewrite S in Z1. lia. }
  assert (CP' : forall n a, current ops ans n = Some a -> r_match (R n) <> None -> complete_plus d2 132 l4').
  { intros n a C M. specialize (CP n a C M). unfold complete_plus. change (header_size 132) with 12. lia. }
  assert (AC : forall n a, current ops ans n = Some a -> (accepts_packet (R n) f d2 l4' <-> accepts_packet (R n) f data (l4 + 8))).
  { intros n a C. destruct (HM n a C) as (_ & _ & _ & _ & _ & _ & M). unfold accepts_packet. destruct (a_match a) as [ms|], (r_match (R n)) as [es|]; cbn [given] in M; try contradiction; cbn [all_or]; [|tauto].
    destruct M as (_ & M & _). rewrite (accepts_rest es (fl_proto f) data (l4 + 8) d2 l4' M SR). tauto. }
  assert (SAME : runp (packet h now done eth data) s = runp (packet h now done eth d2) s).
  { apply (encap_same_match h now done eth data d2 f enc l4 l4' sp dp s ops ans R L); auto.
    destruct (Z_lt_dec (l4 + 8 + 12) (zlen data)) as [LT|GE].
    - right. split; [exact SR|]. unfold complete_plus. change (header_size 132) with 12. lia.
    - left. intros n a C. destruct (r_match (R n)) eqn:E; [|reflexivity]. exfalso. apply GE. apply (CP n a C). congruence. }
  rewrite SAME. destruct (flowlb_served h now done eth d2 f l4' s L ops ans R) as (v & ev & RUN & OUT); auto; try (rewrite PR; assumption).
  - intros X. congruence.
  - intros n a C N A. apply (HO n a C N). apply (AC n a C). exact A.
  - exists v, ev. split; [exact RUN|]. destruct OUT as [(n & a & o & C & N & A & MX & D & V)|(V & NO)].
    + left. exists n, a, o. split; [exact C|]. split; [exact N|]. split; [apply (AC n a C); exact A|]. split; [|auto].
      intros n' a' C' N' A'. apply (MX n' a' C' N'). apply (AC n' a' C'). exact A'.
    + right. split; [exact V|]. intros n a C A. apply (NO n a C). apply (AC n a C). exact A.
Qed.
