(** C63: the flows in force are those requested; C64: requests do not bring
    the flow thread down. *)
From Coq Require Import String.
From Verif Require Import Base Cstr_Model Flow_Model Flow_Spec Flow3_Proofs Remote_Model FlowLb_Model FlowLb_Spec
  FlowLb3_Proofs FlowLb4_Proofs FlowLb5_Proofs Requests_Spec Requests_Proofs Requests2_Proofs.

(** ** C63

    In every execution, whatever packets arrive and other processes do, the
    flows are at any time those of a history of definitions and deletions
    (what packets get by them is C32-C41). *)
Theorem C63_always : forall h shm mem tr w, exec h anything (start h shm mem) tr w ->
  exists now, stands (h_lib h) (t_set (w_st w)) now.
Proof. exact always_stands. Qed.
Print Assumptions C63_always.

(** When a request is answered, packets handled meanwhile, the definitions in
    force are those before it changed as the answer tells: by "OK" to "set"
    the flow is defined as requested, with an object for the target
    requested, and with udpencap the companion too; other flows are as
    before.  Otherwise nothing changed, but for the companion of a flow
    refused.  By "delete" the flow and its companion are gone, others not.
    Other requests change nothing. *)
Theorem C63_answered : forall h shm mem tr1 w1 c ev tr2 w2 m now,
  libc_ok (h_lib h) -> 0 <= c_udpencap c < 65536 ->
  exec h anything (start h shm mem) tr1 w1 -> stands (h_lib h) (t_set (w_st w1)) now ->
  exec h anything w1 ((Command c, ev) :: tr2) w2 -> no_command tr2 -> w_flow w2 = Ret (Reply m) ->
  exists now', stands (h_lib h) (t_set (w_st w2)) now' /\ answered_request c m (w_st w2) now now'.
Proof. exact answered. Qed.
Print Assumptions C63_answered.

(** Between requests the flows do not change. *)
Theorem C63_between : forall h shm mem tr1 w1 tr2 w2,
  exec h anything (start h shm mem) tr1 w1 -> idle (w_flow w1) = true ->
  exec h anything w1 tr2 w2 -> no_command tr2 -> t_set (w_st w2) = t_set (w_st w1).
Proof. exact unchanged. Qed.
Print Assumptions C63_between.

(** An sctp flow with udpencap is defined while a packet is handled; then it
    is deleted. *)
Definition sched_encap : list move :=
  arrive ex_tcp :: Command (sctpcmd (str "a") (str "t1") 0 None 9899) :: fs 2 ++ ps 0 1 ++ fs 2.
Example C63_ex : exists tr w, exec (ex_h false) anything (ex_start false) tr w /\
  w_flow w = Ret (Reply "OK") /\ map f_name (t_set (w_st w)) = [str "#a"; str "a"].
Proof.
  destruct (play_sat any_move (ex_h false) anything (ex_start false) sched_encap
     (fun w _ => match w_flow w with Ret (Reply m) => String.eqb m "OK" | _ => false end &&
                 match map f_name (t_set (w_st w)) with [a; b] => streq a (str "#a") && streq b (str "a") | _ => false end)%bool)
    as (tr & w & H & B); [intros; exact I|vm_compute; reflexivity|].
  exists tr, w. split; auto. apply Bool.andb_true_iff in B. destruct B as (B1 & B2).
  destruct (w_flow w) as [[v|m]|]; try discriminate. apply String.eqb_eq in B1. subst m. split; auto.
  destruct (map f_name (t_set (w_st w))) as [|a [|b [|]]]; try discriminate.
  apply Bool.andb_true_iff in B2. destruct B2 as (B2 & B3). apply Util_Proofs.streq_eq in B2, B3. subst. reflexivity.
Qed.

(** ** C64

    Provided that requests are valid and name a target, their priorities are
    within 2^31 of each other, and the conditions of C43, the flow thread
    comes to an answer: every request takes at most 11 steps and none of them
    fails. *)
Theorem C64_goes_on_partial : forall h lo shm mem tr w, libc_ok (h_lib h) -> h_trace h = false ->
  exec h (survivable_move h lo) (start h shm mem) tr w -> orderly h w FlowStep -> idle (w_flow w) = false ->
  exists w' ev, step h w FlowStep = Some (Cont w' ev).
Proof. exact flow_goes_on. Qed.
Print Assumptions C64_goes_on_partial.
Theorem C64_answered_soon : forall h may w1 c ev tr w2, exec h may w1 ((Command c, ev) :: tr) w2 -> no_command tr ->
  0 <= flow_steps tr <= 11 /\ (flow_steps tr = 11 -> idle (w_flow w2) = true).
Proof. exact answers_soon. Qed.
Print Assumptions C64_answered_soon.
Example C64_ex : exists tr w, exec (ex_h false) (survivable_move (ex_h false) 0) (ex_start false) tr w /\
  orderly (ex_h false) w FlowStep /\ idle (w_flow w) = false.
Proof.
  destruct (play_sat orderlyb (ex_h false) (survivable_move (ex_h false) 0) (ex_start false) (Command (plain "a" "t1") :: fs 1)
     (fun w tr => orderlyb w FlowStep && negb (idle (w_flow w)))%bool)
    as (tr & w & H & B); [|vm_compute; reflexivity|].
  - intros w m H O. split; [apply orderlyb_ok; auto; revert H; cbn; intros H; repeat (destruct H as [<-|H]; [move_solve|]); destruct H|].
    intros c ->. destruct H as [H|[H|[]]]; [|discriminate]. injection H as <-. intros _. cbn. split; [discriminate|]. unfold close_priority. lia.
  - exists tr, w. split; auto. apply Bool.andb_true_iff in B. destruct B as (B1 & B2). split; [apply orderlyb_ok; [exact I|auto]|].
    apply Bool.negb_true_iff in B2. auto.
Qed.

(** Each condition on the request is needed.  To set a flow that exists
    without naming the target again is enough to bring flowlb down: *)
Theorem C64_no_target_refuted :
  halts_by (mkFC (Some (str "set")) (Some (str "a")) None 0 None (Some (str "80")) None None None None 0) defined_a.
Proof. apply (halts_play _ _ 2); vm_compute; reflexivity. Qed.
Print Assumptions C64_no_target_refuted.
(** ... to set a flow without a name, *)
Theorem C64_no_name_refuted :
  halts_by (mkFC (Some (str "set")) None (Some (str "t1")) 0 None None None None None None 0) defined_a /\
  halts_by (mkFC (Some (str "set")) None (Some (str "t1")) 0 None None None None None None 0) [].
Proof. split; [apply (halts_play _ _ 0)|apply (halts_play _ _ 2)]; vm_compute; reflexivity. Qed.
Print Assumptions C64_no_name_refuted.
(** ... and to set priorities 2^31 and more apart. *)
Theorem C64_priority_refuted :
  halts_by (setcmd (str "b") (str "t1") (-2147483648) None None 0) (Command (setcmd (str "a") (str "t1") 2147483647 None None 0) :: fs 3).
Proof. apply (halts_play _ _ 2); vm_compute; reflexivity. Qed.
Print Assumptions C64_priority_refuted.
