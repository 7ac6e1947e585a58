(** C45: flow requests. *)
From Coq Require Import String.
From Verif Require Import Base Cstr_Model Util_Spec Remote_Model Remote_Spec Remote_Proofs.

(** What flow-set sends for options without newlines (and name, priority and
    udpencap of at most 1000 characters; the client checks the others) is
    decoded by the server to exactly these options; nothing behind it is
    read. *)
Theorem C45_client_to_server : forall o s rest,
  opts_ok o -> cmdFlowSet o = Ok s ->
  exists c, readFlowCmd (s ++ rest) = Ok (Some (c, rest)) /\ decoded (set_request o) c.
Proof. exact client_to_server. Qed.
Print Assumptions C45_client_to_server.

(** The client does not send ports or udpencap without protocols, nor texts
    that are too long. *)
Theorem C45_client_refuses : forall o,
  (o_protocols o = None /\ (o_dports o <> None \/ o_sports o <> None \/ o_udpencap o <> None)) \/ 255 < zlen (o_target o) ->
  cmdFlowSet o = Die.
Proof. exact client_refuses. Qed.
Print Assumptions C45_client_refuses.
Example C45_refuses_ex : cmdFlowSet (mkSO (str "a") (str "t") None None None None (Some (str "80")) None None None) = Die.
Proof. reflexivity. Qed.

(** The same for any request with each field at most once, in any order. *)
Theorem C45_request_decoded : forall l rest,
  NoDup (map fst l) -> Forall (fun fv => In (fst fv) fields /\ line_ok (fst fv) (snd fv)) l ->
  exists c, readFlowCmd (request l ++ rest) = Ok (Some (c, rest)) /\ decoded l c.
Proof. exact request_decoded. Qed.
Print Assumptions C45_request_decoded.

(** The other commands of the client. *)
Theorem C45_other_commands : forall name rest,
  plain name -> zlen name <= 1000 ->
  (exists c, readFlowCmd (cmdFlowDelete name ++ rest) = Ok (Some (c, rest)) /\
             decoded [(str "action", str "delete"); (str "name", name)] c) /\
  (exists c, readFlowCmd (cmdFlowList (Some name) ++ rest) = Ok (Some (c, rest)) /\
             decoded [(str "action", str "list"); (str "name", name)] c) /\
  (exists c, readFlowCmd (cmdFlowList None ++ rest) = Ok (Some (c, rest)) /\
             decoded [(str "action", str "list")] c) /\
  (exists c, readFlowCmd (cmdFlowListNames ++ rest) = Ok (Some (c, rest)) /\
             decoded [(str "action", str "list-names")] c).
Proof. exact other_commands. Qed.
Print Assumptions C45_other_commands.

(** Any stream of bytes is either decoded or refused (no memory error, no
    endless loop). *)
Theorem C45_reader_total : forall s, exists r, readFlowCmd s = Ok r.
Proof. exact readFlowCmd_total. Qed.
Print Assumptions C45_reader_total.

(** A stream without terminator is refused. *)
Theorem C45_no_terminator : forall s, ~ occurs (str "eoc:") s -> readFlowCmd s = Ok None.
Proof. exact no_terminator. Qed.
Print Assumptions C45_no_terminator.

(** A line without ':' is refused, whatever follows. *)
Theorem C45_bad_line : forall l bad rest,
  Forall (fun fv => In (fst fv) fields /\ line_ok (fst fv) (snd fv)) l ->
  ~ In 58 bad -> ~ In 10 bad -> ~ In 0 bad -> zlen bad <= 1022 ->
  readFlowCmd (lines l ++ bad ++ 10 :: rest) = Ok None.
Proof. exact bad_line. Qed.
Print Assumptions C45_bad_line.

(** A line with an unknown field is not refused: it makes no difference. *)
Theorem C45_unknown_field_refuted : forall l f v rest,
  Forall (fun fv => In (fst fv) fields /\ line_ok (fst fv) (snd fv)) l ->
  ~ In f fields -> ~ In 58 f -> ~ In 10 f -> ~ In 0 f -> f <> str "eoc" -> line_ok f v ->
  readFlowCmd (lines l ++ (f ++ str ":" ++ v ++ [10]) ++ rest) = readFlowCmd (lines l ++ rest).
Proof. exact unknown_ignored. Qed.
Print Assumptions C45_unknown_field_refuted.

(** The side conditions are needed: the client sends a name of 1018 characters
    followed by "target:evil", and the server takes "evil" for the target. *)
Theorem C45_long_name_refuted : forall t s rest,
  plain t -> zlen t <= 255 ->
  cmdFlowSet (mkSO (repeat 97 (Z.to_nat 1018) ++ str "target:evil") t None None None None None None None None) = Ok s ->
  exists c, readFlowCmd (s ++ rest) = Ok (Some (c, rest)) /\
    c_name c = Some (repeat 97 (Z.to_nat 1018)) /\ c_target c = Some (str "evil").
Proof. exact long_name. Qed.
Print Assumptions C45_long_name_refuted.

(** udpencap 75435 arrives as 9899. *)
Theorem C45_udpencap_cut_refuted : exists o s c,
  opts_ok o /\ o_udpencap o = Some (str "75435") /\ cmdFlowSet o = Ok s /\
  readFlowCmd s = Ok (Some (c, [])) /\ c_udpencap c = 9899.
Proof. exact udpencap_cut. Qed.
Print Assumptions C45_udpencap_cut_refuted.

Example C45_ex :
  let o := mkSO (str "f1") (str "lb1") (Some (str "10")) (Some (str "tcp,udp")) (Some (str "10.0.0.0/24"))
            None (Some (str "80,443")) None (Some (str "tcp[2:2]=80")) None in
  opts_ok o /\
  match cmdFlowSet o with
  | Ok s => readFlowCmd s =
      Ok (Some (mkFC (Some (str "set")) (Some (str "f1")) (Some (str "lb1")) 10
                (Some [str "tcp"; str "udp"]) (Some (str "80,443")) None
                (Some [str "10.0.0.0/24"]) None (Some [str "tcp[2:2]=80"]) 0, []))
  | _ => False
  end.
Proof.
  split; [|vm_compute; reflexivity].
  unfold opts_ok, plain_opt, short_opt, plain. cbn. repeat split; try lia; intuition lia.
Qed.

Example C45_ex2 :
  let l := [(str "action", str "delete"); (str "name", str "x:y")] in
  NoDup (map fst l) /\ Forall (fun fv => In (fst fv) fields /\ line_ok (fst fv) (snd fv)) l /\
  readFlowCmd (lines l) = Ok None /\ readFlowCmd (lines l ++ str "target" ++ [10] ++ str "eoc:") = Ok None /\
  exists c, readFlowCmd (request l) = Ok (Some (c, [])) /\ c_name c = Some (str "x:y").
Proof.
  split; [repeat constructor; cbn; intuition discriminate|].
  split.
  { constructor; [|constructor; [|constructor]].
    - split; [left; reflexivity|]. unfold line_ok. cbn. intuition lia.
    - split; [right; left; reflexivity|]. unfold line_ok. cbn. intuition lia. }
  split; [vm_compute; reflexivity|]. split; [vm_compute; reflexivity|].
  eexists. split; vm_compute; reflexivity.
Qed.
