(** C67: load-balancing on addresses only. *)
From Verif Require Import Base Maglev_Model Config_Model Maglev_Spec IpKey_Model IpKey_Spec IpKey_Proofs IpKey3_Proofs Flow_Spec Fwmark_Spec Lb_Spec
  Maglev_Props Xlb_Model Xlb_Spec Xlb_Proofs.

(** ** C67

    Every packet that belongs to the traffic from a to b (whatever its
    protocol, any fragment, ICMP errors about replies) and that can be read
    gets the mark the table has for the two addresses. *)
Theorem C67_mark : forall m n rand cs s eth data a b rc k fi, init_args m n rand -> reached m n rand cs s -> belongs eth data a b ->
  getHashKey (S (length data)) 0 eth data = Ok (Some (rc, k, fi)) ->
  xlbPacket s s s eth data = Ok (mark_or (-1) (table_mark s (djb2 (a ++ b)))).
Proof. exact xlb_mark. Qed.
Print Assumptions C67_mark.
(** Packets of TCP, UDP and SCTP, fragments other than the first and ICMP
    messages that quote nothing can always be read. *)
Theorem C67_served : forall m n rand cs s eth data a b, init_args m n rand -> reached m n rand cs s ->
  (exists f, flow_ok f /\ flow_packet eth data f /\ fl_src f = a /\ fl_dst f = b) \/ (exists id, part eth data false a b id) \/
  (exists t, icmp_message eth data t a b /\ ~ quoting eth t) ->
  xlbPacket s s s eth data = Ok (mark_or (-1) (table_mark s (djb2 (a ++ b)))).
Proof. exact xlb_served. Qed.
Print Assumptions C67_served.
(** The verdict is the mark of an active target if there is one (and the
    packet can be read), otherwise -1. *)
Theorem C67_active : forall m n rand cs s eth data r, init_args m n rand -> reached m n rand cs s -> getHashKey (S (length data)) 0 eth data = Ok r ->
  exists v, xlbPacket s s s eth data = Ok v /\ ((exists j, is_active s j) -> r <> None -> In v (mactive s) /\ 0 <= v) /\
    ((forall j, ~ is_active s j) -> v = -1).
Proof. exact xlb_reads. Qed.
Print Assumptions C67_active.

(** A TCP packet from 10.0.0.1 to 10.0.0.2, and an ICMP error about the reply *)
Definition ex_xtcp : list Z :=
  [69; 0; 0; 40; 0; 0; 0; 0; 64; 6; 0; 0; 10; 0; 0; 1; 10; 0; 0; 2; 3; 232; 0; 80; 0; 0; 0; 0; 0; 0; 0; 0; 80; 2; 0; 0; 0; 0; 0; 0].
Definition ex_xicmp : list Z :=
  [69; 0; 0; 56; 0; 0; 0; 0; 64; 1; 0; 0; 10; 9; 9; 9; 10; 0; 0; 2; 3; 4; 0; 0; 0; 0; 0; 0;
   69; 0; 0; 40; 0; 0; 0; 0; 64; 6; 0; 0; 10; 0; 0; 2; 10; 0; 0; 1; 0; 80; 3; 232; 0].
Definition ex_a : list Z := mapped [10; 0; 0; 1].
Definition ex_b : list Z := mapped [10; 0; 0; 2].
Ltac at_now := apply at_chk; [lia|vm_compute; discriminate|vm_compute; reflexivity].
Example C67_ex : exists s, reached 7 3 ex_rand [Activate [10; 11; 12]] s /\ belongs ETH_IP ex_xtcp ex_a ex_b /\ belongs ETH_IP ex_xicmp ex_a ex_b /\
  xlbPacket s s s ETH_IP ex_xtcp = Ok 10 /\ xlbPacket s s s ETH_IP ex_xicmp = Ok 10.
Proof.
  eexists. split; [apply ex_reached; vm_compute; reflexivity|]. split; [|split; [|split; vm_compute; reflexivity]].
  - left. left. split; [reflexivity|]. exists 20, 6, [10; 0; 0; 1], [10; 0; 0; 2].
    split; [reflexivity|]. split; [reflexivity|]. split.
    + split; [reflexivity|]. split; [reflexivity|]. split; [exists 69; split; [at_now|reflexivity]|]. split; [lia|]. split; [at_now|]. split; at_now.
    + split; [|split; [discriminate|vm_compute; reflexivity]]. exists 0, 0. split; [at_now|]. vm_compute. repeat split; discriminate.
  - right; right; right. exists 28, 6, 48. split; [|split; [|discriminate]].
    + left. split; [reflexivity|]. exists 20, [10; 9; 9; 9], [10; 0; 0; 2], 3. split.
      * split; [reflexivity|]. split; [reflexivity|]. split; [exists 69; split; [at_now|reflexivity]|]. split; [lia|]. split; [at_now|]. split; at_now.
      * split; [exists 0, 0; split; [at_now|]; vm_compute; repeat split; discriminate|]. split; [at_now|]. auto.
    + left. split; [reflexivity|]. exists [10; 0; 0; 2], [10; 0; 0; 1], 20. split; [reflexivity|]. split; [reflexivity|]. split; [|reflexivity].
      split; [reflexivity|]. split; [reflexivity|]. split; [exists 69; split; [at_now|reflexivity]|]. split; [lia|]. split; [at_now|]. split; at_now.
Qed.

(** After an activate command was killed (or while it is at work): the
    handler only checks the first entry and reads active[-1]. *)
Definition ex_zero (k : nat) : Z := 0.
Theorem C67_killed_refuted : exists s s' tr s1, init_args 7 3 ex_zero /\ reached 7 3 ex_zero [] s /\ run_cmd s (Activate [10; 11; 12]) = Ok (s', tr) /\
  In s1 (states s tr) /\ xlbPacket s1 s1 s1 ETH_IP ex_xtcp = UB.
Proof.
  destruct (cmdInit 7 3 ex_zero) as [s| | |] eqn:E; [|vm_compute in E; discriminate..].
  exists s. destruct (run_cmd s (Activate [10; 11; 12])) as [[s' tr]| | |] eqn:E2; [|vm_compute in E; injection E as <-; vm_compute in E2; discriminate..].
  exists s', tr, (nth 11 (states s tr) s). split; [unfold init_args, ex_zero; repeat split; lia|]. split; [exists s; auto|]. split; [auto|].
  vm_compute in E. injection E as <-. vm_compute in E2. injection E2 as <- <-. split; [apply nth_In; vm_compute; repeat constructor|]. vm_compute. reflexivity.
Qed.
Print Assumptions C67_killed_refuted.
