(** C78: the clients of flowlb. *)
From Coq Require Import String.
From Verif Require Import Base Cstr_Model Flow_Model Flow_Spec Match_Model Remote_Model Remote_Spec
  FlowLb_Model FlowLb_Spec FlowLb3_Proofs FlowLb4_Proofs FlowLb5_Proofs Requests_Spec Print_Model Trace_Model Trace_Spec
  Client_Model Client_Spec Opt_Model Opt_Spec Opt_Proofs Opt2_Proofs Client_Proofs Client2_Proofs.

(** ** C78

    What any of the clients sends for a line of options the server reads as
    one request: the one the line asks for. *)
Theorem C78_told : forall k its tail s rest,
  Forall (item_ok (options_of k)) its -> carried k its tail -> sends k (line its tail) = Ok (Some s) ->
  exists c, readFlowCmd (s ++ rest) = Ok (Some (c, rest)) /\ told k its c /\ (names_one k -> c_name c <> None).
Proof. exact client_told. Qed.
Print Assumptions C78_told.

(** Something is sent for lines of options only, and for trace-flow-set just
    if the values are not too long and there are no ports without protocols
    (flow-set: see C45). *)
Theorem C78_lines : forall k words s, sends k words = Ok (Some s) ->
  exists its tail, words = line its tail /\ Forall (item_ok (options_of k)) its /\ forall i, ~ missing (options_of k) its i.
Proof. exact client_lines. Qed.
Print Assumptions C78_lines.
Theorem C78_trace_checks : forall its tail,
  Forall (item_ok traceSetOpts) its -> (forall i, ~ missing traceSetOpts its i) ->
  (trace_checked its -> exists s, sends TraceSet (line its tail) = Ok (Some s)) /\
  (~ trace_checked its -> sends TraceSet (line its tail) = Die).
Proof. exact trace_checks. Qed.
Print Assumptions C78_trace_checks.

(** flow-set, to a flowlb in any state reached, while packets are handled:
    the reply, got in one piece, is printed; the status is 0 just if the flow
    is set as the line asks. *)
Theorem C78_flow_set : forall h shm mem tr1 w1 now its tail s rest,
  libc_ok (h_lib h) -> exec h anything (start h shm mem) tr1 w1 -> stands (h_lib h) (t_set (w_st w1)) now ->
  Forall (item_ok flowSetOpts) its -> carried FlowSet its tail -> sends FlowSet (line its tail) = Ok (Some s) ->
  exists c, readFlowCmd (s ++ rest) = Ok (Some (c, rest)) /\ told FlowSet its c /\
    forall ev tr2 w2 m junk, exec h anything w1 ((Command c, ev) :: tr2) w2 -> no_command tr2 -> w_flow w2 = Ret (Reply m) -> short_matches c ->
    exists t st now', replyText c m = Ok t /\ talkEnd junk (firstn 64 (written t)) = Ok (t ++ [10], st) /\ stands (h_lib h) (t_set (w_st w2)) now' /\
      ((st = 0 /\ set_accepted c (w_st w2) now now') \/ (st = -1 /\ set_refused c now now')).
Proof. exact set_ends. Qed.
Print Assumptions C78_flow_set.

(** flow-delete: the flow is gone, "OK" is printed and the status is 0. *)
Theorem C78_flow_delete : forall h shm mem tr1 w1 now its tail s rest,
  libc_ok (h_lib h) -> exec h anything (start h shm mem) tr1 w1 -> stands (h_lib h) (t_set (w_st w1)) now ->
  Forall (item_ok nameOpts) its -> carried FlowDelete its tail -> sends FlowDelete (line its tail) = Ok (Some s) ->
  exists c, readFlowCmd (s ++ rest) = Ok (Some (c, rest)) /\ told FlowDelete its c /\
    forall ev tr2 w2 m junk, exec h anything w1 ((Command c, ev) :: tr2) w2 -> no_command tr2 -> w_flow w2 = Ret (Reply m) ->
    exists now', m = "OK"%string /\ talkEnd junk (firstn 64 (written (str m))) = Ok (str m ++ [10], 0) /\ stands (h_lib h) (t_set (w_st w2)) now' /\ deleted c now now'.
Proof. exact delete_ends. Qed.
Print Assumptions C78_flow_delete.

(** trace-flow-delete: "OK" and 0 *)
Theorem C78_trace_delete : forall L P w c w' a junk, c_action c = Some (str "trace-delete") -> c_name c <> None ->
  tstep L P w (TRequest c) = Some (TCont w' (Answer a)) \/ tstep L P w TFree = Some (TCont w' (Answer a)) ->
  talkEnd junk (firstn 64 a) = Ok (str "OK" ++ [10], 0).
Proof. exact trace_delete_ends. Qed.
Print Assumptions C78_trace_delete.

(** The commands that list print what the server wrote, however it arrives. *)
Theorem C78_listed : forall l t, arrives t l -> listEnd l = (t, 0).
Proof. exact copy_all. Qed.
Print Assumptions C78_listed.

(** Any other answer than "OK...": the answer is printed, the status is -1.
    No answer: nothing is printed, and -1. *)
Theorem C78_answers : forall junk t, ~ In 0 t -> zlen t <= 63 ->
  talkEnd junk (firstn 64 (written t)) = Ok (t ++ [10], if prefix (str "OK") t then 0 else -1) /\ talkEnd junk [] = Ok ([], -1).
Proof. intros junk t N L. split; [apply talk_short; auto|reflexivity]. Qed.
Print Assumptions C78_answers.

(** Examples: flow-set and the flow set; flow-delete; a listing in three
    pieces *)
Definition ex_its : list item :=
  [GivenEq true (str "name") (str "a"); GivenNext true (str "targ") (str "t1"); GivenEq false (str "protocols") (str "tcp"); GivenEq true (str "dports") (str "80")].
Lemma ex_its_ok : Forall (item_ok flowSetOpts) ex_its.
Proof.
  assert (T := flowSet_ok). assert (NF : forall o, takesArg o = true -> ~ is_flag o) by (intros o H; rewrite flag_takes; congruence).
  repeat constructor; cbn [item_ok].
  - exists 1, (must "name"). split; [apply findOpt_denotes; [exact T|reflexivity]|]. repeat split; [apply NF; reflexivity|discriminate].
  - discriminate.
  - exists 2, (must "target"). split; [apply findOpt_denotes; [exact T|reflexivity]|]. repeat split; [apply NF; reflexivity|discriminate].
  - exists 4, (text "protocols"). split; [apply findOpt_denotes; [exact T|reflexivity]|]. repeat split; [apply NF; reflexivity|discriminate].
  - exists 7, (text "dports"). split; [apply findOpt_denotes; [exact T|reflexivity]|]. repeat split; [apply NF; reflexivity|discriminate].
Qed.
Example C78_ex_carried : carried FlowSet ex_its None /\ exists s, sends FlowSet (line ex_its None) = Ok (Some s).
Proof. split; [apply carried_small; reflexivity|]. eexists. vm_compute. reflexivity. Qed.
Definition ex_ends (words : list chars) (s : state) : outcome (string * chars * outcome (chars * Z)) :=
  do r <- sends FlowSet words;
  match r with
  | None => Die
  | Some t =>
      do q <- readFlowCmd t;
      match q with
      | None => Die
      | Some (c, _) =>
          match runp (command (h_lib (ex_h false)) c) s with
          | Some (Reply m, _, _) => do a <- replyText c m; Ok (m, a, talkEnd (repeat 65 64) (firstn 64 (written a)))
          | _ => Die
          end
      end
  end.
Example C78_ex_set : ex_ends (line ex_its None) (w_st (ex_start false)) = Ok ("OK"%string, str "OK", Ok (str "OK" ++ [10], 0)).
Proof. vm_compute. reflexivity. Qed.
Example C78_ex_refused : ex_ends [str "--name=a"; str "--target=t1"; str "--dsts=10.0.0.0/"; str "--protocols=tpc"] (w_st (ex_start false)) =
  Ok ("Invalid protocols"%string, str "Invalid protocols", Ok (str "Invalid protocols" ++ [10], -1)).
Proof. vm_compute. reflexivity. Qed.
Example C78_ex_delete : sends FlowDelete [str "--name=a"] = Ok (Some (str "action:delete" ++ [10] ++ str "name:a" ++ [10] ++ str "eoc:" ++ [10])).
Proof. vm_compute. reflexivity. Qed.
Example C78_ex_trace : sends TraceSet [str "--name=a"; str "--proto"; str "udp"; str "--sports=1-5"] =
  Ok (Some (str "action:trace-set" ++ [10] ++ str "name:a" ++ [10] ++ str "protocols:udp" ++ [10] ++ str "sports:1-5" ++ [10] ++ str "eoc:" ++ [10])) /\
  sends TraceSet [str "--name=a"; str "--sports=1-5"] = Die.
Proof. split; vm_compute; reflexivity. Qed.
Example C78_ex_list : arrives (str "[]" ++ [10]) [(str "[", 1); (str "]", 1); ([10], 1)].
Proof. split; [reflexivity|]. repeat constructor; cbn; try discriminate. Qed.

(** A match that is refused is told with its text.  For one of 35 characters
    and more the reply may have 64 characters and more; then the client's
    buffer has no 0 and printf reads behind it. *)
Theorem C78_long_reply_refuted :
  (forall junk t, zlen junk = 64 -> ~ In 0 t -> 64 <= zlen t -> talkEnd junk (firstn 64 (written t)) = UB) /\
  ex_ends [str "--name=a"; str "--target=t1"; str "--match=sctp[0:1]=0x1,tcp[0:2]&0x00000fff==0x00000050"] (w_st (ex_start false)) =
    Ok ("Match"%string, str "Match [tcp[0:2]&0x00000fff==0x00000050] Doesn't match regexp", Ok (str "Match [tcp[0:2]&0x00000fff==0x00000050] Doesn't match regexp" ++ [10], -1)) /\
  ex_ends [str "--name=a"; str "--target=t1"; str "--match=tcp[12:4] & 0x00000fff0000 == 0x000000500"] (w_st (ex_start false)) =
    Ok ("Match"%string, str "Match [tcp[12:4] & 0x00000fff0000 == 0x000000500] Doesn't match regexp", UB).
Proof.
  split; [intros junk t J N L; exact (talk_long junk t N J L)|]. split; vm_compute; reflexivity.
Qed.
Print Assumptions C78_long_reply_refuted.

(** The reply is expected in one piece: of "OK" in two pieces the first is
    printed with what was in the buffer, and the status is -1 though the flow
    is set; or there is no 0 in the buffer. *)
Theorem C78_pieces_refuted :
  (forall junk, znth junk 1 <> Some 75 -> forall out st, talkEnd junk [79] = Ok (out, st) -> st = -1) /\
  talkEnd (repeat 65 64) [79; 75] = UB.
Proof.
  split; [exact piece_status|reflexivity].
Qed.
Print Assumptions C78_pieces_refuted.

(** trace-flow-set: an error is printed, with status -1.  But also for a
    flow that is set: the server does not answer, nothing is printed and the
    status is -1. *)
Theorem C78_trace_set_refuted : forall L P may tr w its tail s rest, texec L P may tr w ->
  Forall (item_ok traceSetOpts) its -> carried TraceSet its tail -> sends TraceSet (line its tail) = Ok (Some s) ->
  exists c n, readFlowCmd (s ++ rest) = Ok (Some (c, rest)) /\ told TraceSet its c /\ c_name c = Some n /\
    forall w' ev, tstep L P w (TRequest c) = Some (TCont w' ev) ->
      (ev = NoAnswer /\ Trace_Spec.asked (tr ++ [(TRequest c, ev)]) n (Some c) /\ forall junk, talkEnd junk [] = Ok ([], -1)) \/
      (exists m t, ev = Answer (written (str m)) /\ x_set w' = x_set w /\ replyText c m = Ok t /\
         forall junk, short_matches c -> talkEnd junk (firstn 64 (written t)) = Ok (t ++ [10], -1)).
Proof. exact trace_set_ends. Qed.
Print Assumptions C78_trace_set_refuted.

(** The commands that list end with status 0 though nothing could be written. *)
Theorem C78_write_refuted : forall t, t <> [] -> listEnd [(t, -1)] = ([], 0).
Proof. intros [|x t] H; [destruct H; reflexivity|reflexivity]. Qed.
Print Assumptions C78_write_refuted.
