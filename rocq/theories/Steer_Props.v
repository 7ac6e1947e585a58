(** C13: all fragments of a datagram are steered to the same target by lb and flowlb. *)
From Coq Require Import String.
From Verif Require Import Base Lists Cstr_Model IpKey_Model IpKey_Spec Maglev_Model Match_Spec Flow_Model Flow_Spec FlowLb_Model FlowLb_Spec
  FlowLb4_Proofs FlowLb5_Proofs Lb_Model Lb_Spec LbEx_Proofs Fwmark_Spec Steer_Spec Steer_Proofs Steer2_Proofs Steer3_Proofs SteerEx_Proofs.
From Verif Require Frag_Model Frag_Spec.

(** [frag_of] is about fragments according to the packet formats (see C14): other fragments
    always, first fragments unless the packet handler gives up on them. *)
Theorem C13_other_fragments : forall enc eth data a b id, part eth data false a b id -> frag_of enc eth data false (mkD a b (id_bytes id)).
Proof. exact part_other. Qed.
Print Assumptions C13_other_fragments.
Theorem C13_first_fragments : forall enc eth data a b id r, part eth data true a b id -> getHashKey (S (length data)) enc eth data = Ok (Some r) ->
  frag_of enc eth data true (mkD a b (id_bytes id)).
Proof. exact part_first. Qed.
Print Assumptions C13_first_fragments.
(** A packet is a fragment of one datagram. *)
Theorem C13_one_datagram : forall enc eth data b d b' d', frag_of enc eth data b d -> frag_of enc eth data b' d' -> b' = b /\ d' = d.
Proof. exact frag_unique. Qed.
Print Assumptions C13_one_datagram.

(** Packets one after the other in any order, flows and targets changing meanwhile: after a
    first fragment was sent to target [v], every other fragment of the datagram within the
    lifetime is sent to [v]; see [follow]. *)
Theorem C13_flowlb : forall h T, Frag_Spec.conf_seq (h_frag h) -> forall l1 now done eth data l2 vs1 v vs2 d,
  handled (packet h) (tier_table h T) (Frag_Model.fragTableCreate (h_frag h)) (l1 ++ (now, done, eth, data) :: l2) (vs1 ++ v :: vs2) -> length vs1 = length l1 ->
  clock 0 (l1 ++ (now, done, eth, data) :: l2) -> frag_of 0 eth data true d -> ~ In v [-1; h_notargets h; h_nolb h] ->
  follow 0 (Frag_Model.g_ttl (h_frag h)) d v [-1; h_notargets h; h_nolb h] now l2 vs2.
Proof. exact steer_flowlb. Qed.
Print Assumptions C13_flowlb.
Theorem C13_lb : forall g T, Frag_Spec.conf_seq (h_frag (l_h g)) -> forall l1 now done eth data l2 vs1 v vs2 d,
  handled (lbPacket g) (tier_table (l_h g) T) (Frag_Model.fragTableCreate (h_frag (l_h g))) (l1 ++ (now, done, eth, data) :: l2) (vs1 ++ v :: vs2) ->
  length vs1 = length l1 -> clock 0 (l1 ++ (now, done, eth, data) :: l2) -> frag_of (l_encap g) eth data true d ->
  ~ In v [-1; h_notargets (l_h g); h_nolb (l_h g)] ->
  follow (l_encap g) (Frag_Model.g_ttl (h_frag (l_h g))) d v [-1; h_notargets (l_h g); h_nolb (l_h g)] now l2 vs2.
Proof. exact steer_lb. Qed.
Print Assumptions C13_lb.

(** Any interleaving of packets and commands, any clocks: another fragment is dropped, or sent
    where a first fragment of the same datagram was sent before, or passed to another load
    balancer of the tier. *)
Theorem C13_flowlb_interleaved : forall h shm mem tr w i x eth data d, Frag_Spec.conf_ok (h_frag h) -> exec h anything (start h shm mem) tr w ->
  znth (w_pk w) i = Some (Ret (Verdict x)) -> znth (arrivals tr) i = Some (eth, data) -> frag_of 0 eth data false d ->
  x = -1 \/ (exists j eth data, znth (arrivals tr) j = Some (eth, data) /\ frag_of 0 eth data true d /\ znth (w_pk w) j = Some (Ret (Verdict x))) \/
  exists r own, h_tier h = Some (r, own) /\ 0 <= x /\ x <> own.
Proof. exact interleaved_flowlb. Qed.
Print Assumptions C13_flowlb_interleaved.
Theorem C13_lb_interleaved : forall g mem tr w i x eth data d, Frag_Spec.conf_ok (h_frag (l_h g)) -> lexec g (lstart g mem) tr w ->
  znth (lw_pk w) i = Some (Ret (Verdict x)) -> znth (larrivals tr) i = Some (eth, data) -> frag_of (l_encap g) eth data false d ->
  x = -1 \/ (exists j eth data, znth (larrivals tr) j = Some (eth, data) /\ frag_of (l_encap g) eth data true d /\ znth (lw_pk w) j = Some (Ret (Verdict x))) \/
  exists r own, h_tier (l_h g) = Some (r, own) /\ 0 <= x /\ x <> own.
Proof. exact interleaved_lb. Qed.
Print Assumptions C13_lb_interleaved.

(** ** Examples: three fragments of an SCTP datagram, the second one arrives first *)
Example C13_flowlb_ex : Frag_Spec.conf_seq (h_frag (ex_h false)) /\
  handled (packet (ex_h false)) (tier_table (ex_h false) (ex_mem 1)) (Frag_Model.fragTableCreate (h_frag (ex_h false))) c13_l [-1; 101; 101; 101] /\
  clock 0 c13_l /\ frag_of 0 2048 f1 true fd /\ frag_of 0 2048 f2 false fd /\ frag_of 0 2048 f3 false fd.
Proof.
  split; [unfold Frag_Spec.conf_seq, Frag_Spec.conf_ok; cbn; unfold two32; lia|]. split.
  { apply (hrun_handled _ (tier_table (ex_h false) (ex_mem 1)) _ ltac:(intros s r own X; discriminate) c48_state). vm_compute. reflexivity. }
  split; [cbn; unfold two64; lia|]. exact fd_parts.
Qed.
Example C13_lb_ex :
  handled (lbPacket c48_lb) (tier_table (l_h c48_lb) (ex_mem 1)) (Frag_Model.fragTableCreate (h_frag (l_h c48_lb))) c13_l [-1; 101; 101; 101] /\
  frag_of (l_encap c48_lb) 2048 f1 true fd.
Proof.
  split; [apply (hrun_handled _ (tier_table (l_h c48_lb) (ex_mem 1)) _ ltac:(intros s r own X; discriminate) c48_state); vm_compute; reflexivity|].
  eexists _, _, _. split; [vm_compute; reflexivity|]. split; [reflexivity|]. split; [reflexivity|]. vm_compute. split; [discriminate|reflexivity].
Qed.
(** Fragments in two threads *)
Example C13_lb_interleaved_ex : exists tr w, lexec c48_lb (lstart c48_lb ex_mem) tr w /\ znth (larrivals tr) 1 = Some (2048, f3) /\
  znth (lw_pk w) 1 = Some (Ret (Verdict 101)) /\ frag_of (l_encap c48_lb) 2048 f3 false fd.
Proof.
  assert (X : match lplay c48_lb (lstart c48_lb ex_mem) [LArrive 1 false 2048 f1; LStep 0; LArrive 2 false 2048 f3; LStep 0; LStep 0; LStep 1] with
    | Some w => match znth (lw_pk w) 1 with Some (Ret (Verdict v)) => v =? 101 | _ => false end | None => false end = true) by (vm_compute; reflexivity).
  destruct (lplay c48_lb _ _) as [w|] eqn:E; [|discriminate]. eexists _, w. split; [apply (lplay_exec _ _ _ _ E)|]. split; [reflexivity|].
  split; [clear - X; destruct (znth (lw_pk w) 1) as [[[v|]|]|]; try discriminate; apply Z.eqb_eq in X; subst v; auto|].
  eexists _, _, _. split; [vm_compute; reflexivity|]. split; [reflexivity|]. split; [reflexivity|]. vm_compute. repeat split; discriminate.
Qed.
