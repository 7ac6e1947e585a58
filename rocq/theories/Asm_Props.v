(** C80: the fragment table with a reassembler. *)
From Verif Require Import Base IpKey_Spec Conntrack_Model Conntrack_Spec Reasm_Model Reasm_Spec Frag_Model Frag_Spec Asm_Model Asm_Spec Asm_Proofs Asm2_Proofs Asm3_Proofs Asm4_Proofs Asm5_Proofs.

(** Any number of threads, any interleaving: the reassembler adds no behaviour to those of the
    table with a reassembler that says anything (so that what C13, C24 and C25 say about
    every interleaving holds), its items are free or used by a tracker, a tracker
    belongs to an object that is allocated, and as many fragments were counted
    as stored, but for those about to be. *)
Theorem C80_interleavings : forall g size n tr w, conf_ok g -> aexec g (astart g size n) tr w ->
  exec g (start g n) tr (plain w) /\
  zlen (a_pool (aw_sys w)) + items (aw_sys w) = Z.of_nat size /\
  (forall o, has_tracker w o -> allocated_obj (plain w) o) /\
  a_frags (aw_sys w) = u32 (zlen (stored_tr tr) - sum (map uncounted (aw_pcs w))).
Proof. exact asm_ok. Qed.
Print Assumptions C80_interleavings.

(** When all calls are over and the entries expired, no item is lost. *)
Theorem C80_all_free : forall g size n tr w, conf_ok g -> aexec g (astart g size n) tr w ->
  stored_data (s_ct (a_sys (aw_sys w))) = [] -> Forall (fun p => fst p = Idle) (aw_pcs w) ->
  a_trk (aw_sys w) = [] /\ zlen (a_pool (aw_sys w)) = Z.of_nat size /\ a_frags (aw_sys w) = u32 (zlen (stored_tr tr)).
Proof. exact asm_all_free. Qed.
Print Assumptions C80_all_free.

Example C80_example_threads : conf_ok ga /\ exists tr w, aexec ga (astart ga 4 2) tr w /\
  rc_of tr = [(0, None); (0, Some 7); (1, None)] /\
  stored_data (s_ct (a_sys (aw_sys w))) = [] /\ Forall (fun p => fst p = Idle) (aw_pcs w) /\
  s_reassembled (a_sys (aw_sys w)) = 1 /\ zlen (stored_tr tr) = 1.
Proof. exact (conj (proj1 ga_ok) threads_run). Qed.

(** Calls one after the other, with any packets of any datagrams that arrive such that those the
    reassembler watches are fragments of one datagram and never leave bytes missing on both
    of their sides: no call fails, each behaves as the sessions say, and a
    session ends with the fragment that makes the datagram complete and no other one.
    Missing: fragments that do split a hole (refuted below); several threads are next. *)
Theorem C80_served_partial : forall g size l, conf_seq g -> clock 0 l ->
  (forall l1 c d l2 ans x m am, l = l1 ++ (c, d) :: l2 ->
     served g (asmCreate g size) sempty aempty l1 ans x m am -> orderly (g_ttl g) m am c d) ->
  exists ans x m am, served g (asmCreate g size) sempty aempty l ans x m am.
Proof. exact served_ok. Qed.
Print Assumptions C80_served_partial.

(** So after a first fragment was accepted with value [v] and watched, every fragment within the
    lifetime gets [v], the one that completes the datagram included; then the key is free again. *)
Theorem C80_watched_partial : forall g x m am now k v want d l an ans x' m' am',
  served g x m am ((CFirst now k v want, d) :: l) (an :: ans) x' m' am' ->
  an_rc an = 0 -> current (g_ttl g) m now k = None -> 2 <= zlen (a_pool x) ->
  exists f, frag_packet d f /\ watched (g_ttl g) k v now [f] l ans.
Proof. exact first_watched. Qed.
Print Assumptions C80_watched_partial.

Example C80_example : conf_seq ga /\ clock 0 two_frags /\
  (forall l1 c d l2 ans x m am, two_frags = l1 ++ (c, d) :: l2 ->
     served ga (asmCreate ga 4) sempty aempty l1 ans x m am -> orderly (g_ttl ga) m am c d) /\
  (exists ans x m am, served ga (asmCreate ga 4) sempty aempty two_frags ans x m am) /\
  exists x, acalls ga (asmCreate ga 4) two_frags = Ok (x, [([(0, None)], []); ([(0, Some 5)], []); ([(-1, None)], [])]).
Proof.
  assert (C : clock 0 two_frags) by (unfold two_frags, first_, other; cbn [clock c_now]; unfold two64; lia).
  split; [exact ga_ok|]. split; [exact C|]. split; [exact two_orderly|]. split; [|exact two_run].
  exact (served_ok ga 4 two_frags ga_ok C two_orderly).
Qed.

(** C73, the counter reAssembled: after any number of such calls it is the number of calls
    that made a watched datagram complete, modulo 2^32. *)
Theorem C73_reassembled_partial : forall g size l, conf_seq g -> clock 0 l ->
  (forall l1 c d l2 ans x m am, l = l1 ++ (c, d) :: l2 ->
     served g (asmCreate g size) sempty aempty l1 ans x m am -> orderly (g_ttl g) m am c d) ->
  exists ans x m am n, completes g (asmCreate g size) sempty aempty l ans x m am n /\
    served g (asmCreate g size) sempty aempty l ans x m am /\ s_reassembled (a_sys x) = n mod two32.
Proof. exact completes_ok. Qed.
Print Assumptions C73_reassembled_partial.
(** Its hypotheses are those of [C80_example]; one of those three calls completes the datagram. *)
Example C73_reassembled_ex : exists x r, acalls ga (asmCreate ga 4) two_frags = Ok (x, r) /\ s_reassembled (a_sys x) = 1.
Proof. eexists. eexists. split; [vm_compute; reflexivity|reflexivity]. Qed.

(** Any number of threads in any interleaving, the fragments of each watched datagram in an order, as the
    threads get to handle them, that never leaves bytes missing on both sides: no step goes wrong but the
    one that goes wrong without reassembler (C25), and reAssembled (C73) is the number of fragments, other
    than first ones, with which what the reassembler had seen was complete, modulo 2^32.
    Missing: fragments that do split a hole. *)
Theorem C80_threads_partial : forall g size k tr h n w, conf_ok g -> oexec g (astart g size k) tr h n w ->
  aexec g (astart g size k) tr w /\ s_reassembled (a_sys (aw_sys w)) = n mod two32 /\
  (forall l y, awstep g w l = Some y -> in_order h w l -> (forall r, y <> Ok r) ->
     exists i c d st o, l = AThread i c d st /\ window (plain w) i o /\ ~ allocated_obj (plain w) o).
Proof. exact threads_ok. Qed.
Print Assumptions C80_threads_partial.

(** A thread about to handle a further fragment of a watched datagram: if the datagram is complete
    with it then its key is free, and if it is not then nothing happens to the table. *)
Theorem C80_ends_partial : forall g size k tr h n w i c d st now key d' o x f y, conf_ok g -> oexec g (astart g size k) tr h n w ->
  znth (aw_pcs w) i = Some (PBody (CStore now key d') o, x) -> inspected w (AThread i c d st) = Some (o, d') ->
  frag_packet d' f -> fits (of_obj h o) d' -> awstep g w (AThread i c d st) = Some y ->
  exists w' ob, y = Ok (w', ob) /\ (complete (of_obj h o ++ [f]) -> key_free w' key) /\
    (~ complete (of_obj h o ++ [f]) -> s_ct (a_sys (aw_sys w')) = s_ct (a_sys (aw_sys w))).
Proof. exact threads_end. Qed.
Print Assumptions C80_ends_partial.

(** Thread 0 completes the datagram whose first fragment thread 1 handled, while thread 1 has
    looked the same entry up again. *)
Example C80_threads_ex : conf_ok ga /\ exists tr w x y, oexec ga (astart ga 4 2) tr [(1, fa)] 0 w /\ znth (aw_pcs w) 0 = Some (PBody (CStore 3 ky (pkt 1 8 false)) 1, x) /\
  inspected w stepB = Some (1, pkt 1 8 false) /\ frag_packet (pkt 1 8 false) fb /\ fits (of_obj [(1, fa)] 1) (pkt 1 8 false) /\
  awstep ga w stepB = Some y /\ complete (of_obj [(1, fa)] 1 ++ [fb]) /\ Exists (fun p => fst p = PBody (CGet 3 ky) 1) (aw_pcs w).
Proof. exact threads_ex. Qed.

(** Whatever the size of the reassembler, if it is large enough to watch one datagram: of the
    first datagram it watches, bytes 0-7 and then 16-23 come.  Undefined behaviour;
    without reassembler both are forwarded. *)
Theorem C80_out_of_order_refuted : forall n,
  (exists d1 d2, out_of_order = [(CFirst 10 kx 5 true, d1); (CStore 11 kx d2, [])] /\
     frag_packet d1 (Reasm_Spec.mkFrag 0 8 true) /\ frag_packet d2 (Reasm_Spec.mkFrag 16 8 true)) /\
  conf_seq ga /\ acalls ga (asmCreate ga (2 + n)) out_of_order = UB /\
  exists x, acalls ga (asmCreate ga 0) out_of_order = Ok (x, [([(0, None)], []); ([(0, Some 5)], [])]).
Proof.
  intro n. split.
  - exists (pkt 0 8 true), (pkt 2 8 true). split; [reflexivity|]. split; [apply (pkt_frag 0 8 true); lia|apply (pkt_frag 2 8 true); lia].
  - split; [exact ga_ok|]. split; [exact (out_of_order_ub n)|]. apply out_of_order_ok. lia.
Qed.
Print Assumptions C80_out_of_order_refuted.

(** Reassemblers of any size from 4, after two earlier datagrams: bytes 0-7, 32-39 and 40-47 (the last ones)
    come and the session is ended, so that bytes 8-15 and 16-31, which come then, are stored for a
    first fragment that has been there already.  Without reassembler both are forwarded. *)
Theorem C80_forgotten_refuted : forall n,
  (exists x, acalls ga (asmCreate ga (4 + n)) (before ++ lost) =
     Ok (x, [([(0, None)], []); ([(0, Some 5)], []); ([(0, None)], []); ([(-1, None)], []); ([(-1, None)], []);
             ([(0, None)], []); ([(0, Some 6)], []); ([(0, Some 6)], []); ([(1, None)], []); ([(1, None)], [])])) /\
  (exists x r, acalls ga (asmCreate ga 0) (before ++ lost) =
     Ok (x, r ++ [([(0, None)], []); ([(0, Some 6)], []); ([(0, Some 6)], []); ([(0, Some 6)], []); ([(0, Some 6)], [])])) /\
  (exists d1 d2 d3 d4 d5,
     lost = [(CFirst (T0 + 1) kx 6 true, d1); (CStore (T0 + 2) kx d2, []); (CStore (T0 + 3) kx d3, []); (CStore (T0 + 4) kx d4, []); (CStore (T0 + 5) kx d5, [])] /\
     Forall2 frag_packet [d1; d2; d3; d4; d5]
       [Reasm_Spec.mkFrag 0 8 true; Reasm_Spec.mkFrag 32 8 true; Reasm_Spec.mkFrag 40 8 false; Reasm_Spec.mkFrag 8 8 true; Reasm_Spec.mkFrag 16 16 true]).
Proof.
  intro n. split; [exact (lost_run n)|]. split; [apply lost_alone; lia|].
  exists (pkt 0 8 true), (pkt 4 8 true), (pkt 5 8 false), (pkt 1 8 true), (pkt 2 16 true). split; [reflexivity|].
  constructor; [apply (pkt_frag 0 8 true); lia|]. constructor; [apply (pkt_frag 4 8 true); lia|]. constructor; [apply (pkt_frag 5 8 false); lia|].
  constructor; [apply (pkt_frag 1 8 true); lia|]. constructor; [apply (pkt_frag 2 16 true); lia|]. constructor.
Qed.
Print Assumptions C80_forgotten_refuted.
