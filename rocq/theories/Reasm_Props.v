(** C27, C28, C62: the reassembly tracker. *)
From Verif Require Import Base IpKey_Model IpKey_Spec Reasm_Model Reasm_Spec Reasm_Proofs.

(** ** C27 *)

(** As long as no fragment leaves bytes missing on both sides (fragments
    arrive in order, in reverse order, or alternate between both ends, with
    duplicates and overlaps), the packets of a datagram are reported complete
    exactly when the last one and all bytes have come.  Whatever the pool,
    and without undefined behaviour. *)
Theorem C27_one_hole_partial : forall n fs t f data p,
  n <= UINT_MAX -> tracked fs t -> frag_packet data f ->
  Forall (of_datagram n) (fs ++ [f]) -> no_splits (fs ++ [f]) ->
  exists r t' p', raHandleFragment t data p = Ok (r, t', p') /\ (r = 0 \/ r = 1) /\
    (r = 0 <-> complete (fs ++ [f])).
Proof. exact packets_ok. Qed.
Print Assumptions C27_one_hole_partial.

(** A fragment in the middle that arrives first: the bytes before it are
    forgotten, and the hole d left in a free item is taken over. *)
Theorem C27_split_refuted : forall p0 t p0' first len d p,
  raNew p0 = (Some t, p0') -> 0 < first -> 1 <= len -> first + len <= UINT_MAX ->
  snd d < first \/ first + len <= fst d ->
  handleFragment t first len true (Some d :: p) =
    Ok (1, mkT (t_head t) [Some (first + len, UINT_MAX); Some d], p).
Proof. intros. eapply first_split; eauto. Qed.
Print Assumptions C27_split_refuted.

(** With any reassembler of at least 5 items: while another datagram comes in
    reverse order, bytes 100-199 and then 200-299, the last ones, are received
    and the datagram is reported complete.  Bytes 0-99 never came. *)
Theorem C27_early_refuted : forall k,
  (exists s, rrun (createReassembler (5 + k), []) ex_early = Ok (s, [0; 0; 1; 0; 1; 0])) /\
  ex_early = [RNew; RNew; RFrag 1 (mkFrag 8 8 false); RFrag 1 (mkFrag 0 8 true);
              RFrag 0 (mkFrag 100 100 true); RFrag 0 (mkFrag 200 100 false)] /\
  Forall (of_datagram 300) [mkFrag 100 100 true; mkFrag 200 100 false] /\
  ~ complete [mkFrag 100 100 true; mkFrag 200 100 false].
Proof.
  intros k. split; [apply early|]. split; [reflexivity|]. split.
  - repeat constructor; cbn; try Lia.lia; try discriminate.
  - intros (l & [<-|[<-|[]]] & M & R); [discriminate|].
    destruct (R 0) as (f & [<-|[<-|[]]] & F); cbn in *; Lia.lia.
Qed.
Print Assumptions C27_early_refuted.

(** Fragments of IPv6 behind another extension header.  The header lengths are misread (as in C17): behind a
    header of 8 bytes no fragment is ever counted, so that no such datagram is reported complete ... *)
Theorem C27_extension_ignored_refuted : forall t data f p, ext_packet data 0 f -> raHandleFragment t data p = Ok (-1, t, p).
Proof. intros t data f p H. destruct (ext_read data 0 f t p H) as [[_ E]|[X _]]; [exact E|exfalso; apply X; reflexivity]. Qed.
Print Assumptions C27_extension_ignored_refuted.
(** ... and behind one of 16 bytes whose last options are padding, whichever fragment comes first
    is reported to be the whole datagram. *)
Theorem C27_extension_early_refuted : forall p0 t p0' data f p, raNew p0 = (Some t, p0') -> ext_packet data 1 f -> at_ data 50 [0; 0] ->
  exists t' p', raHandleFragment t data p = Ok (0, t', p').
Proof. exact ext_early. Qed.
Print Assumptions C27_extension_early_refuted.
(** The middle 8 bytes of a datagram, and the only fragment of one: such packets are there. *)
Example C27_extension_ex :
  ext_packet ([96; 0; 0; 0; 0; 32; 0; 64] ++ repeat 0 32 ++ [44; 1] ++ repeat 0 14 ++ [17; 0; 0; 9; 0; 0; 0; 1] ++ repeat 0 8) 1 (mkFrag 8 8 true) /\
  at_ ([96; 0; 0; 0; 0; 32; 0; 64] ++ repeat 0 32 ++ [44; 1] ++ repeat 0 14 ++ [17; 0; 0; 9; 0; 0; 0; 1] ++ repeat 0 8) 50 [0; 0] /\ ~ complete [mkFrag 8 8 true] /\
  ext_packet ([96; 0; 0; 0; 0; 24; 0; 64] ++ repeat 0 32 ++ [44; 0] ++ repeat 0 6 ++ [17; 0; 0; 0; 0; 0; 0; 1] ++ repeat 0 8) 0 (mkFrag 0 8 false) /\ complete [mkFrag 0 8 false].
Proof.
  split; [|split; [|split; [|split]]].
  - split; [reflexivity|]. exists 96, 0, 0, 9. unfold at_. cbn. repeat split; try Lia.lia.
  - unfold at_. cbn. repeat split; Lia.lia.
  - intros (l & [<-|[]] & M & _). discriminate.
  - split; [reflexivity|]. exists 96, 0, 0, 0. unfold at_. cbn. repeat split; try Lia.lia.
  - exists (mkFrag 0 8 false). split; [left; reflexivity|]. split; [reflexivity|]. intros b Hb. exists (mkFrag 0 8 false). split; [left; reflexivity|exact Hb].
Qed.

(** A datagram of 300 bytes: the last 100 bytes, the first, and the middle,
    with a duplicate *)
Definition ex_frags : list frag :=
  [mkFrag 200 100 false; mkFrag 0 100 true; mkFrag 200 100 false; mkFrag 96 104 true].
Example C27_ex : Forall (of_datagram 300) ex_frags /\ no_splits ex_frags /\ complete ex_frags /\
  (exists t, tracked (firstn 3 ex_frags) t) /\
  ~ complete (firstn 3 ex_frags) /\
  frag_packet ([69; 0; 0; 124; 0; 0; 32; 12] ++ repeat 0 116) (mkFrag 96 104 true).
Proof.
  split; [|split; [|split; [|split; [|split]]]].
  - repeat constructor; cbn; try Lia.lia; try discriminate.
  - intros fs1 f fs2 E (M & a & c & (MA & NA & _) & (_ & _ & LC) & HA & HC).
    destruct fs1 as [|f1 [|f2 [|f3 [|f4 [|]]]]]; unfold ex_frags in E; cbn in E.
    + assert (f = mkFrag 200 100 false) as -> by congruence. discriminate.
    + assert (f = mkFrag 0 100 true) as -> by congruence. cbn in HA. Lia.lia.
    + assert (f = mkFrag 200 100 false) as -> by congruence. discriminate.
    + assert (f = mkFrag 96 104 true /\ f1 = mkFrag 200 100 false /\ f2 = mkFrag 0 100 true) as (-> & -> & ->) by (repeat split; congruence).
      cbn in HA. apply NA. exists (mkFrag 0 100 true). split; [right; left; auto|]. cbn. Lia.lia.
    + discriminate.
    + discriminate.
  - exists (mkFrag 200 100 false). split; [left; auto|]. split; auto. intros b B. cbn in B.
    destruct (Z_lt_dec b 100); [exists (mkFrag 0 100 true); split; [right; left; auto|cbn; Lia.lia]|].
    destruct (Z_lt_dec b 200); [exists (mkFrag 96 104 true); split; [do 3 right; left; auto|cbn; Lia.lia]|].
    exists (mkFrag 200 100 false). split; [left; auto|cbn; Lia.lia].
  - exists (mkT None [Some (100, 199)]).
    apply (tracked_frag [mkFrag 200 100 false; mkFrag 0 100 true] (mkT None [Some (100, 199)]) (mkFrag 200 100 false) [] 1 _ []);
      [|vm_compute; reflexivity].
    apply (tracked_frag [mkFrag 200 100 false] (mkT None [Some (0, 199)]) (mkFrag 0 100 true) [] 1 _ []); [|vm_compute; reflexivity].
    apply (tracked_frag [] (mkT None [Some (0, INF)]) (mkFrag 200 100 false) [] 1 _ []); [|vm_compute; reflexivity].
    apply (tracked_new [None; None] _ []). reflexivity.
  - intros (l & I & M & R). cbn in I. destruct I as [<-|[<-|[<-|[]]]]; try discriminate;
      (destruct (R 150) as (f & [<-|[<-|[<-|[]]]] & F); cbn in *; Lia.lia).
  - split; [reflexivity|]. left. exists 69, 0, 124, 20, true, 12. unfold ipv4_frag, at_. cbn.
    repeat split; try Lia.lia. exists 32, 12. cbn. repeat split; Lia.lia.
Qed.

(** ** C28 *)

(** Without splits there is no undefined behaviour, whatever the pool:
    C27_one_hole_partial.  In general there is none if all items were written
    to and there are as many free items as holes around the fragment, stale
    ones in free items included. *)
Theorem C28_enough_items_partial : forall t first len more p,
  0 <= first -> 1 <= len -> first + len <= UINT_MAX ->
  written (t_holes t) -> written p ->
  count_around first (first + len - 1) (t_holes t) + count_around first (first + len - 1) p <= zlen p ->
  exists r t' p', handleFragment t first len more p = Ok (r, t', p') /\ written (t_holes t') /\ written p'.
Proof. exact enough. Qed.
Print Assumptions C28_enough_items_partial.

(** Packets are read within their bounds: a packet of at least 7 bytes either
    changes nothing and does not complete the datagram, or is handled by
    handleFragment. *)
Theorem C28_packet_reads_partial : forall t data p,
  Forall (fun b => 0 <= b < 256) data -> 7 <= zlen data ->
  (exists first len more, raHandleFragment t data p = handleFragment t first len more p) \/
  exists r, r <> 0 /\ raHandleFragment t data p = Ok (r, t, p).
Proof. exact reading. Qed.
Print Assumptions C28_packet_reads_partial.

(** A fragment in the middle that arrives first: NULL is dereferenced if
    there is no free item, and uninitialised memory read if the item was
    never used. *)
Theorem C28_exhausted_refuted : forall p0 t p0' first len p,
  raNew p0 = (Some t, p0') -> 0 < first -> 1 <= len -> first + len <= UINT_MAX ->
  handleFragment t first len true [] = UB /\ handleFragment t first len true (None :: p) = UB.
Proof.
  intros p0 t p0' first len p H1 H2 H3 H4.
  destruct (first_split p0 t p0' first len (0, 0) p H1 H2 H3 H4) as (A & B & _). auto.
Qed.
Print Assumptions C28_exhausted_refuted.

(** ... which is the case for the first datagram of every reassembler. *)
Theorem C28_fresh_refuted : forall size first len, (2 <= size)%nat -> 0 < first -> 1 <= len -> first + len <= UINT_MAX ->
  rrun (createReassembler size, []) [RNew; RFrag 0 (mkFrag first len true)] = UB.
Proof.
  intros [|[|k]] first len H1 H2 H3 H4; [Lia.lia|Lia.lia|].
  assert (E : handleFragment (mkT None [Some (0, INF)]) first len true (repeat None k) = UB).
  { destruct (first_split [None; None] (mkT None [Some (0, INF)]) [] first len (0, 0) (repeat None (k - 1)) eq_refl H2 H3 H4) as (A & B & _).
    destruct k as [|k]; [exact A|]. cbn [repeat]. cbn [Nat.sub] in B. rewrite PeanoNat.Nat.sub_0_r in B. exact B. }
  cbn [rrun step createReassembler repeat raNew app nth obind fr_first fr_len fr_more]. rewrite E. reflexivity.
Qed.
Print Assumptions C28_fresh_refuted.

Example C28_ex :
  let t := mkT None [Some (0, INF)] in let p := [Some (0, 7); Some (0, INF); Some (0, 7)] in
  written (t_holes t) /\ written p /\ count_around 100 199 (t_holes t) + count_around 100 199 p <= zlen p /\
  raNew [None; None; None] = (Some t, [None]).
Proof. repeat split; try (repeat constructor; discriminate); vm_compute; discriminate. Qed.

(** ** C62 *)

(** Items are conserved by every history. *)
Theorem C62_conserved : forall size ops p ts l,
  rrun (createReassembler size, []) ops = Ok ((p, ts), l) -> zlen p + used ts = Z.of_nat size.
Proof. exact conserved. Qed.
Print Assumptions C62_conserved.

(** Handling a fragment always ends. *)
Theorem C62_terminates : forall s ops, rrun s ops <> Fuel.
Proof. intros s ops. apply rrun_fuel. Qed.
Print Assumptions C62_terminates.

Example C62_ex : exists p, rrun (createReassembler 6, []) (ex_early ++ [RDestroy 0; RDestroy 1]) =
  Ok ((p, [None; None]), [0; 0; 1; 0; 1; 0; 0; 0]) /\ zlen p = 6.
Proof. eexists. split; vm_compute; reflexivity. Qed.
