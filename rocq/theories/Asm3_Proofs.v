(** The fragment table with a reassembler: packets, and executions for the refutations and examples (C80). *)
From Verif Require Import Base IpKey_Spec Conntrack_Model Conntrack_Spec Reasm_Model Reasm_Spec Frag_Model Frag_Spec Asm_Model Asm_Spec Asm_Proofs Asm2_Proofs.

Lemma at_unique d o l l' : at_ d o l -> at_ d o l' -> length l = length l' -> l = l'.
Proof. intros (_ & _ & H) (_ & _ & H') E. rewrite <- H, <- H', E. reflexivity. Qed.
(** A packet is one fragment. *)
Lemma frag_packet_unique d f f' : frag_packet d f -> frag_packet d f' -> f = f'.
Proof.
  intros [_ [(b0 & l1 & l2 & hl & mf & fo & A0 & B & Eh & _ & _ & _ & _ & (hi & lo & A6 & _ & _ & Em & Eo) & ->)|(b0 & hi & lo & A0 & B & _ & _ & A & _ & _ & ->)]]
         [_ [(b0' & l1' & l2' & hl' & mf' & fo' & A0' & B' & Eh' & _ & _ & _ & _ & (hi' & lo' & A6' & _ & _ & Em' & Eo') & ->)|(b0' & hi' & lo' & A0' & B' & _ & _ & A' & _ & _ & ->)]];
    pose proof (at_unique _ _ _ _ A0 A0' eq_refl) as X; injection X as <-; try lia.
  - pose proof (at_unique _ _ _ _ A6 A6' eq_refl) as Y. injection Y as <- <-. subst. reflexivity.
  - pose proof (at_unique _ _ _ _ A A' eq_refl) as Y. injection Y as <- <-. reflexivity.
Qed.

Fixpoint acalls (g : conf) (x : asys) (l : list (call * list Z)) : outcome (asys * list (list (Z * option Z) * list (list Z))) :=
  match l with
  | [] => Ok (x, [])
  | (c, d) :: r =>
      do y <- acall g x c d; let '(x1, ob) := y in
      do z <- acalls g x1 r; let '(x2, rest) := z in Ok (x2, (rc_of ob, handed_of ob) :: rest)
  end.
Fixpoint awrun (g : conf) (w : aworld) (tr : list obs) (ls : list alabel) : option (list obs * aworld) :=
  match ls with
  | [] => Some (tr, w)
  | l :: r => match awstep g w l with Some (Ok (w', ob)) => awrun g w' (tr ++ ob) r | _ => None end
  end.
Lemma awrun_exec g : forall ls w0 tr w tr' w', aexec g w0 tr w -> awrun g w tr ls = Some (tr', w') -> aexec g w0 tr' w'.
Proof.
  induction ls as [|l ls IH]; intros w0 tr w tr' w' E H; cbn [awrun] in H; [injection H as <- <-; assumption|].
  destruct (awstep g w l) as [[[w1 ob]| | |]|] eqn:Es; try discriminate. eapply IH; [|exact H]. eapply ax_step; eassumption.
Qed.

(** ** Packets of the examples: IPv4, at byte 8 [off] of the datagram, [len] bytes *)
Definition pkt (off len : Z) (more : bool) : list Z :=
  [69; 0; 0; 20 + len; 0; 0; (if more then 32 else 0); off] ++ repeat 0 (Z.to_nat (12 + len)).
Lemma pkt_frag off len more : 0 <= off < 256 -> 1 <= len <= 235 -> frag_packet (pkt off len more) (Reasm_Spec.mkFrag (8 * off) len more).
Proof.
  intros Ho Hl. assert (L : zlen (pkt off len more) = 20 + len).
  { unfold pkt, zlen. rewrite app_length, repeat_length. cbn [length]. lia. }
  split; [lia|]. left. exists 69, 0, (20 + len), 20, more, off. unfold at_, ipv4_frag. rewrite !L. cbn [zlen length].
  assert (Z.to_nat (12 + len) = S (Z.to_nat (11 + len))) by lia.
  assert (Z0 : forall a : Z, zlen [a] = 1) by reflexivity. assert (Z1 : forall a b : Z, zlen [a; b] = 2) by reflexivity.
  repeat split; rewrite ?Z0, ?Z1; try lia; try reflexivity.
  - exists (if more then 32 else 0), off. unfold at_. rewrite L, Z1. repeat split; try lia; try reflexivity; destruct more; try reflexivity; cbn; lia.
  - f_equal. lia.
Qed.
Definition ga := mkConf 3 2 3 100 200.
Definition kx : ckey := [1; 2; 3].
Definition ky : ckey := [9].
Definition first_ (now : Z) (k : ckey) (v len : Z) : call * list Z := (CFirst now k v true, pkt 0 len true).
Definition other (now : Z) (k : ckey) (off len : Z) (more : bool) : call * list Z := (CStore now k (pkt off len more), []).
Lemma ga_ok : conf_seq ga.
Proof. unfold conf_seq, conf_ok, ga; cbn [g_hsize g_maxBuckets g_maxFragments]; unfold two32; lia. Qed.

(** ** A datagram in order, and one in reverse *)
Definition two_frags : list (call * list Z) := [first_ 10 kx 5 8; other 11 kx 1 8 false; (CGet 12 kx, [])].
Lemma two_orderly l1 c d l2 ans x m am : two_frags = l1 ++ (c, d) :: l2 -> served ga (asmCreate ga 4) sempty aempty l1 ans x m am -> orderly (g_ttl ga) m am c d.
Proof.
  set (fa := Reasm_Spec.mkFrag 0 8 true). set (fb := Reasm_Spec.mkFrag 8 8 false).
  assert (Pa : frag_packet (pkt 0 8 true) fa) by (apply (pkt_frag 0 8 true); lia).
  assert (Pb : frag_packet (pkt 1 8 false) fb) by (apply (pkt_frag 1 8 false); lia).
  assert (Fa : fits [] (pkt 0 8 true)).
  { exists 16, fa. split; [unfold UINT_MAX; lia|]. split; [assumption|]. split; [repeat constructor; cbn; try lia; discriminate|].
    intros fs1 f fs2 E (_ & a & c0 & (Ha & _) & _ & H & _). destruct fs1 as [|f1 [|f2 r]]; cbn [app] in E; [|discriminate|discriminate]. injection E as <- _. cbn in H. lia. }
  assert (Fb : fits [fa] (pkt 1 8 false)).
  { exists 16, fb. split; [unfold UINT_MAX; lia|]. split; [assumption|]. split; [repeat constructor; cbn; try lia; discriminate|].
    intros fs1 f fs2 E (Hm & a & c0 & (Ha & _) & _ & H & _). destruct fs1 as [|f1 [|f2 [|]]]; cbn [app] in E; try discriminate.
    - injection E as <- _. cbn in H. lia.
    - injection E as <- <- _. discriminate. }
  assert (D1 : complete [fa; fb]).
  { exists fb. split; [right; left; reflexivity|]. split; [reflexivity|]. intros b Hb. cbn in Hb. destruct (Z_lt_dec b 8); [exists fa|exists fb]; (split; [cbn; auto|cbn; lia]). }
  intros El Hs. destruct l1 as [|c1 [|c2 [|c3 r]]]; unfold two_frags in El; cbn [app] in El.
  - injection El as <- <- _. inversion Hs; subst. cbn [orderly first_ fst]. assumption.
  - injection El as <- <- <- _. inversion Hs as [|? ? ? ? ? done ? x1 ob an m1 am1 ? ? ? ? Ho Ha Hr Hh Hsp Hw Hrest]; subst. inversion Hrest; subst. cbn [orderly].
    destruct (current (g_ttl ga) m 11 kx) as [[]|]; auto; destruct (am kx) as [fs|] eqn:Ek; auto.
    clear - Hw Ek Fb Pa. inversion Hw as [|? ? ? ? ? f Hc Hf|? ? ? ? ? Hc Hn|? ? ? ? ? ? ? ? Hc|? ? ? ? ? ? Hc| | |]; subst; try discriminate Hc; rewrite aput_same in Ek; [|discriminate Ek]. injection Ek as <-.
    rewrite (frag_packet_unique _ _ _ Hf Pa). assumption.
  - injection El as _ _ <- <- _. exact Logic.I.
  - destruct r; discriminate.
Qed.
Lemma two_run : exists x, acalls ga (asmCreate ga 4) two_frags = Ok (x, [([(0, None)], []); ([(0, Some 5)], []); ([(-1, None)], [])]).
Proof. eexists. vm_compute. reflexivity. Qed.

(** ** The first datagram of a reassembler, its third fragment before the second *)
Definition out_of_order : list (call * list Z) := [first_ 10 kx 5 8; other 11 kx 2 8 true].
Lemma out_of_order_ub size : acalls ga (asmCreate ga (2 + size)) out_of_order = UB.
Proof. destruct size as [|n]; vm_compute; reflexivity. Qed.
(** ... with a reassembler too small to watch it, or none at all *)
Lemma out_of_order_ok size : (size < 2)%nat -> exists x, acalls ga (asmCreate ga size) out_of_order = Ok (x, [([(0, None)], []); ([(0, Some 5)], [])]).
Proof. intro H. destruct size as [|[|n]]; [| |lia]; eexists; vm_compute; reflexivity. Qed.

(** ** After datagrams with key kx and ky, both over by their time-out, another with key kx *)
Definition T0 : Z := 1000000000.
Definition before : list (call * list Z) :=
  [first_ 1 kx 5 8; other 2 kx 2 8 false; first_ 3 ky 5 8; (CGet T0 kx, []); (CGet T0 ky, [])].
Definition lost : list (call * list Z) :=
  [first_ (T0 + 1) kx 6 8; other (T0 + 2) kx 4 8 true; other (T0 + 3) kx 5 8 false; other (T0 + 4) kx 1 8 true; other (T0 + 5) kx 2 16 true].
Lemma lost_run size : exists x, acalls ga (asmCreate ga (4 + size)) (before ++ lost) =
  Ok (x, [([(0, None)], []); ([(0, Some 5)], []); ([(0, None)], []); ([(-1, None)], []); ([(-1, None)], []);
          ([(0, None)], []); ([(0, Some 6)], []); ([(0, Some 6)], []); ([(1, None)], []); ([(1, None)], [])]).
Proof. eexists. vm_compute. reflexivity. Qed.
Lemma lost_alone size : (size < 2)%nat -> exists x r, acalls ga (asmCreate ga size) (before ++ lost) =
  Ok (x, r ++ [([(0, None)], []); ([(0, Some 6)], []); ([(0, Some 6)], []); ([(0, Some 6)], []); ([(0, Some 6)], [])]).
Proof. intro H. destruct size as [|[|n]]; [| |lia]; eexists; exists [([(0, None)], []); ([(0, Some 5)], []); ([(0, None)], []); ([(-1, None)], []); ([(-1, None)], [])]; vm_compute; reflexivity. Qed.

(** ** Two threads *)
Definition work (i : Z) (x : call * list Z) (n : nat) : list alabel := repeat (AThread i (fst x) (snd x) false) n.
Definition both : list alabel :=
  work 0 (other 1 kx 2 8 false) 5 ++ work 1 (first_ 2 ky 7 8) 7 ++ work 1 (other 3 ky 1 8 false) 5 ++ work 0 (other 1 kx 2 8 false) 4 ++
  [AStats 0 T0; AStats 1 T0; AStats 2 T0].
Lemma threads_run : exists tr w, aexec ga (astart ga 4 2) tr w /\ rc_of tr = [(0, None); (0, Some 7); (1, None)] /\
  stored_data (s_ct (a_sys (aw_sys w))) = [] /\ Forall (fun p => fst p = Idle) (aw_pcs w) /\
  s_reassembled (a_sys (aw_sys w)) = 1 /\ zlen (stored_tr tr) = 1.
Proof.
  set (r := awrun ga (astart ga 4 2) [] both).
  assert (E : exists tr w, r = Some (tr, w)) by (eexists _, _; vm_compute; reflexivity). destruct E as [tr [w E]].
  exists tr, w. split; [eapply awrun_exec; [apply ax_nil|exact E]|].
  assert (X : r = Some (tr, w)) by exact E. clear E. vm_compute in X. injection X as <- <-. repeat split. repeat constructor.
Qed.
