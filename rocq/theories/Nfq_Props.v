(** C47: verdicts. *)
From Verif Require Import Base IpKey_Model Nfq_Model Nfq_Spec Nfq_Proofs Nfq2_Proofs.

(** ** C47: packets are accepted with the mark the handler gave, or dropped

    Any handler (its result may depend on anything), any packets in datagrams of any size, any
    outcome of the system calls.  The verdicts sent are those for the first k packets, one each
    and in order; each is the one the handler's result calls for.  As long as the program runs
    k is the number of packets received.  It stops only if the last verdict could not be sent,
    or in the handler. *)
Theorem C47_verdicts : forall handle sends l ps g f, packets l ps -> (forall n eth d x, handle n eth d = Ok x -> int x) ->
  nfqueueRun handle sends l = (g, f) ->
  exists k fws, (k <= length ps)%nat /\ map Ok fws = results handle 0 (firstn k ps) /\
    g_sent g = map (fun x => verdict (fst x) (snd x)) (combine (firstn k ps) fws) /\
    (forall i, 0 <= i < Z.of_nat k - 1 -> sends i = true) /\
    match f with
    | Goes _ => k = length ps /\ (forall i, 0 <= i < Z.of_nat k -> sends i = true)
    | Exits => (0 < k)%nat /\ sends (Z.of_nat k - 1) = false \/
               (exists p, nth_error ps k = Some p /\ handle (Z.of_nat k) (p_proto p) (p_data p) = Die)
    | Undefined => exists p, nth_error ps k = Some p /\ (forall x, handle (Z.of_nat k) (p_proto p) (p_data p) <> Ok x) /\
                     handle (Z.of_nat k) (p_proto p) (p_data p) <> Die
    end.
Proof. exact verdicts. Qed.
Print Assumptions C47_verdicts.

(** Whatever is received, well formed or not: the handler is called at most once per message
    with a packet, and one verdict is sent per call; the last one may be missing if the program
    has stopped. *)
Theorem C47_never_more : forall handle sends l g f, nfqueueRun handle sends l = (g, f) ->
  zlen (g_sent g) <= g_calls g <= packet_msgs l /\ g_calls g - 1 <= zlen (g_sent g) /\
  (forall x, f = Goes x -> zlen (g_sent g) = g_calls g).
Proof. exact never_more. Qed.
Print Assumptions C47_never_more.

(** The program does not stop for anything else than an error: one when receiving, or one of a
    message received.  A message that only ends the reading of its datagram (the value 0) does
    not stop it. *)
Theorem C47_ends : forall handle sends l g, nfqueueRun handle sends l = (g, Exits) ->
  In None l \/ exists d m, In (Some d) l /\ In m d /\ ends_at handle sends m.
Proof. exact run_stops. Qed.
Print Assumptions C47_ends.

(** Three packets in two datagrams; the second is dropped. *)
Definition ex_msg (id : Z) (data : list Z) : msg := Data true [0; 2] (Some [0; 0; 1; id; 8; 0; 1]) (Some data).
Definition ex_handle (n eth : Z) (d : list Z) : outcome Z := Ok (if n =? 1 then -1 else eth + n).
Definition ex_ps : list queued := [mkQ 2 263 2048 [69]; mkQ 2 264 2048 []; mkQ 2 265 2048 [96; 0]].
Example C47_ex : let l := [Some [ex_msg 7 [69]; ex_msg 8 []]; Some [ex_msg 9 [96; 0]]] in
  packets l ex_ps /\ nfqueueRun ex_handle (fun _ => true) l =
    (mkLog 3 [mkSent 2 1 263 2048; mkSent 2 0 264 0; mkSent 2 1 265 2050], Goes tt).
Proof.
  split; [|vm_compute; reflexivity].
  assert (M : forall id d, 0 <= id < 256 -> packet_msg (ex_msg id d) (mkQ 2 (256 + id) 2048 d)).
  { intros id d H. exists [0; 2], [0; 0; 1; id], [8; 0], [1]. split; [reflexivity|]. split; auto. split; auto. split; auto.
    split; [repeat constructor; lia|]. split; [reflexivity|]. split; [unfold number; cbn [fold_left p_id]; lia|reflexivity]. }
  exists [[mkQ 2 263 2048 [69]; mkQ 2 264 2048 []]; [mkQ 2 265 2048 [96; 0]]]. split; [reflexivity|].
  constructor; [exists [ex_msg 7 [69]; ex_msg 8 []]; split; auto; constructor; [apply (M 7); lia|constructor; [apply (M 8); lia|constructor]]|].
  constructor; [exists [ex_msg 9 [96; 0]]; split; auto; constructor; [apply (M 9); lia|constructor]|constructor].
Qed.
Example C47_ex_fails : let l := [Some [ex_msg 7 [69]]; Some [Control (-1)]; Some [ex_msg 9 [96; 0]]] in
  nfqueueRun ex_handle (fun _ => true) l = (mkLog 1 [mkSent 2 1 263 2048], Exits).
Proof. vm_compute. reflexivity. Qed.
Example C47_ex_goes_on : let l := [Some [Control 0; ex_msg 7 [69]]; Some [ex_msg 9 [96; 0]]] in
  nfqueueRun ex_handle (fun _ => true) l = (mkLog 1 [mkSent 2 1 265 2048], Goes tt).
Proof. vm_compute. reflexivity. Qed.
