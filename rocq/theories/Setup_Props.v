(** C84: which load-balancer gives the verdicts for a queue, and what it takes. *)
From Coq Require Import String.
From Verif Require Import Base Lists Cstr_Model Rangeset_Model Rangeset_Spec Rangeset2_Proofs Opt_Model Start_Spec Setup_Model Setup_Spec Setup_Proofs Setup2_Proofs Setup3_Proofs Setup4_Proofs.

(** Every verdict is for a packet that was queued before, by a load-balancer that
    runs and that has a queue with this number; the handler got the first
    bytes of the packet, as many as the mtu (at most 65531); the mark is the
    handler's answer, and the packet is dropped if that is negative.  No packet
    gets a second verdict. *)
Theorem C84_verdicts :
  forall handle os w o1 o2 p t q id proto data v,
  kexec handle sane os w -> os = o1 ++ Verdict p t q id proto data v :: o2 ->
  (exists s qlen mtu pk, runs o1 p s qlen mtu /\ listed s t /\ q = number16 t /\ In (Queued q id pk) o1 /\
    proto = k_proto pk /\ data = copied mtu pk /\ v = result (handle p id proto data)) /\
  (forall o, In o o1 \/ In o o2 -> ~ verdict_on id o).
Proof. exact verdicts. Qed.
Print Assumptions C84_verdicts.

(** If the mtu is not smaller than the packet, the handler gets all of it. *)
Theorem C84_whole :
  forall mtu pk, zlen (k_data pk) <= mtu -> zlen (k_data pk) <= 65531 -> copied mtu pk = k_data pk.
Proof. intros mtu pk A B. apply firstn_all2. unfold zlen in *. lia. Qed.
Print Assumptions C84_whole.

(** As long as no two have the same queue, no load-balancer ends unless it is
    killed or a message cannot be sent: no packet is too large for the buffer. *)
Theorem C84_alive :
  forall handle os w p,
  kexec handle (fun l => sane l /\ spares p l) os w -> apart os -> ~ In (Ended p) os.
Proof. exact alive. Qed.
Print Assumptions C84_alive.

(** And every queue asked for is served: with turns of its thread alone, all
    packets that wait get the verdict of the handler, and then the kernel takes a
    further one. *)
Theorem C84_served :
  forall handle os w p s qlen mtu t,
  kexec handle sane os w -> apart os -> runs os p s qlen mtu -> listed s t ->
  exists n w' ob, krun handle w (repeat (KTurn p t) n) = Some (w', ob) /\ (forall i, ~ In (Ended i) ob) /\
    (forall id pk, waits os p (number16 t) id pk ->
       In (Verdict p t (number16 t) id (k_proto pk) (copied mtu pk) (result (handle p id (k_proto pk) (copied mtu pk)))) ob) /\
    (0 < qlen -> forall h pk, exists w2 id, kstep handle w' (KPacket (number16 t) h pk) = Some (w2, [Queued (number16 t) id pk])).
Proof. exact served. Qed.
Print Assumptions C84_served.

(** A load-balancer that has given a verdict in each of its queues goes on,
    whatever others are started, with the same queues too. *)
Theorem C84_undisturbed :
  forall handle os w p s qlen mtu ls w' ob,
  kexec handle sane os w -> runs os p s qlen mtu -> (forall t, listed s t -> worked os p t) ->
  Forall (fun l => sane l /\ spares p l) ls -> krun handle w ls = Some (w', ob) -> ~ In (Ended p) ob.
Proof. exact undisturbed. Qed.
Print Assumptions C84_undisturbed.

(** The other one, started with a queue in use, ends: with all its queues. *)
Theorem C84_second_refuted :
  forall handle os w p p' s t t' qlen mtu,
  kexec handle sane os w -> worked os p' t' -> (forall a b c, ~ runs os p a b c) -> listed s t -> number16 t = number16 t' ->
  exists w', krun handle w (KStart p s qlen mtu :: repeat (KTurn p t) 6) = Some (w', [Started p s qlen mtu; Ended p]).
Proof. exact second. Qed.
Print Assumptions C84_second_refuted.

(** A range with more than 65536 queues ends the load-balancer, even alone. *)
Theorem C84_wraps_refuted :
  forall handle s a b p qlen mtu,
  queue_text s a b -> a + 65536 <= b ->
  exists w', krun handle kstart (KStart p s qlen mtu :: repeat (KTurn p a) 5 ++ repeat (KTurn p (a + 65536)) 6) = Some (w', [Started p s qlen mtu; Ended p]).
Proof. exact wraps. Qed.
Print Assumptions C84_wraps_refuted.

(** The buffer asked for has half of the bytes of a full queue, in pages, *)
Theorem C84_buffer :
  forall qlen mtu, 0 <= qlen -> 0 <= mtu -> qlen * mtu < 2 ^ 32 -> newSize qlen mtu = qlen * mtu / 2 / 4096 * 4096.
Proof. exact buffer. Qed.
Print Assumptions C84_buffer.
(** but a longer queue may ask for none. *)
Theorem C84_buffer_refuted : exists qlen mtu, 0 < qlen < 2 ^ 31 /\ mtu = 1500 /\ newSize qlen mtu = 0.
Proof. exists 2863312, 1500. vm_compute. intuition congruence. Qed.
Print Assumptions C84_buffer_refuted.

(** ** Examples *)
Definition hd (p id proto : Z) (data : list Z) : Z := if zlen data =? 4 then 100 + p else -1.
Definition pk4 : packet := mkP 2048 [1; 2; 3; 4].
Definition pk5 : packet := mkP 2048 [1; 2; 3; 4; 5].
Ltac is_a_dec := match goal with |- is_dec ?s ?v => change s with (dec v) end; apply dec_ok; vm_compute; intuition congruence.
Lemma text01 : queue_text (str "0:1") 0 1.
Proof. right. exists (str "0"), (str "1"). split; [reflexivity|]. split; [is_a_dec|]. split; [is_a_dec|]. vm_compute. intuition congruence. Qed.
Lemma text2 : queue_text (str "2") 2 2.
Proof. left. split; [is_a_dec|]. lia. Qed.
Lemma from_start ls w os : Forall sane ls -> krun hd kstart ls = Some (w, os) -> kexec hd sane os w.
Proof. intros F E. change os with ([] ++ os). eapply exec_run; eauto. constructor. Qed.

(** Two load-balancers, three queues, two packets *)
Definition day : list klabel :=
  KStart 7 (str "0:1") 1024 1500 :: KStart 8 (str "2") 10 1500 :: repeat (KTurn 7 0) 5 ++ repeat (KTurn 7 1) 5 ++ repeat (KTurn 8 2) 5
  ++ [KPacket 1 100 pk4; KPacket 2 100 pk5; KPacket 3 100 pk5; KTurn 8 2].
Definition seen : list kobs :=
  [Started 7 (str "0:1") 1024 1500; Started 8 (str "2") 10 1500; Queued 1 0 pk4; Queued 2 1 pk5; Refuses 3 pk5; Verdict 8 2 2 1 2048 [1; 2; 3; 4; 5] None].
Lemma day_sane : Forall sane day.
Proof.
  assert (T1 := text01). assert (T2 := text2). apply Forall_app with (l1 := [KStart 7 (str "0:1") 1024 1500; KStart 8 (str "2") 10 1500]). split.
  - repeat constructor; cbn [sane]; eauto; lia.
  - repeat constructor; cbn [sane]; lia.
Qed.
Lemma day_seen : option_map snd (krun hd kstart day) = Some seen.
Proof. vm_compute. reflexivity. Qed.
Lemma listed01 t : listed (str "0:1") t <-> t = 0 \/ t = 1.
Proof. destruct (listed_queues _ _ _ text01) as (qs & E & _ & L). rewrite <- L. vm_compute in E. injection E as <-. cbn [In]. intuition lia. Qed.
Lemma listed2 t : listed (str "2") t <-> t = 2.
Proof. destruct (listed_queues _ _ _ text2) as (qs & E & _ & L). rewrite <- L. vm_compute in E. injection E as <-. cbn [In]. intuition lia. Qed.
Lemma day_apart : apart seen.
Proof.
  intros p s ql mt p' s' ql' mt' t t' H H' L L' N. unfold seen in H, H'. cbn [In] in H, H'.
  destruct H as [H|[H|[H|[H|[H|[H|[]]]]]]]; try discriminate; destruct H' as [H'|[H'|[H'|[H'|[H'|[H'|[]]]]]]]; try discriminate;
    injection H as <- <- <- <-; injection H' as <- <- <- <-; apply listed01 in L || apply listed2 in L; apply listed01 in L' || apply listed2 in L';
    unfold number16 in N; intuition (subst; try reflexivity; try discriminate).
Qed.
Example C84_day : exists w, kexec hd sane seen w /\ apart seen /\ runs seen 7 (str "0:1") 1024 1500 /\ listed (str "0:1") 1 /\ waits seen 7 1 0 pk4.
Proof.
  pose proof day_seen as E. destruct (krun hd kstart day) as [(w, os)|] eqn:R; [|discriminate]. injection E as ->. exists w. split; [apply (from_start day w seen day_sane R)|].
  split; [apply day_apart|]. split.
  - exists [], (tl seen). split; [reflexivity|]. intros H. cbn in H. intuition discriminate.
  - split; [apply listed01; auto|]. exists (str "0:1"), 1024, 1500, [], [Started 8 (str "2") 10 1500], (skipn 3 seen). split; [reflexivity|].
    split; [intros [H|[]]; discriminate|]. split; [intros H; cbn in H; intuition discriminate|]. intros o H. cbn in H. destruct H as [<-|[<-|[<-|[]]]]; cbn; auto; discriminate.
Qed.
(** The packet gets mark 107 in the next turn. *)
Example C84_mark : option_map snd (krun hd kstart (day ++ [KTurn 7 1])) = Some (seen ++ [Verdict 7 1 1 0 2048 [1; 2; 3; 4] (Some 107)]).
Proof. vm_compute. reflexivity. Qed.
(** Load-balancer 8 has worked in its only queue; another one with queue 2 ends. *)
Example C84_another : exists w, kexec hd sane seen w /\ worked seen 8 2 /\ (forall t, listed (str "2") t -> worked seen 8 t) /\ (forall a b c, ~ runs seen 9 a b c) /\ listed (str "2") 2 /\
  option_map snd (krun hd w (KStart 9 (str "2") 10 1500 :: repeat (KTurn 9 2) 6)) = Some [Started 9 (str "2") 10 1500; Ended 9].
Proof.
  destruct C84_day as (w & X & _). assert (W : worked seen 8 2). { exists (firstn 5 seen), [], 2, 1, 2048, [1; 2; 3; 4; 5], None. split; [reflexivity|intros []]. }
  assert (NR : forall a b c, ~ runs seen 9 a b c). { intros a b c R. apply runs_started in R. cbn in R. intuition discriminate. }
  exists w. split; auto. split; auto. split; [intros t L; apply listed2 in L; subst; auto|]. split; auto. split; [apply listed2; auto|].
  destruct (C84_second_refuted hd seen w 9 8 (str "2") 2 2 10 1500 X W NR (proj2 (listed2 2) eq_refl) eq_refl) as (w' & ->). reflexivity.
Qed.
Example C84_range : queue_text (str "0:65536") 0 65536.
Proof. right. exists (str "0"), (str "65536"). split; [reflexivity|]. split; [is_a_dec|]. split; [is_a_dec|]. vm_compute. intuition congruence. Qed.
Example C84_size : newSize 1024 1500 = 765952.
Proof. reflexivity. Qed.
