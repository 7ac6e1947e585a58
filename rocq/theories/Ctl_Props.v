(** The shared log configuration: loglevel and trace (C81). *)
From Coq Require Import String.
From Verif Require Import Base Lists Cstr_Model Rangeset_Model Rangeset_Spec Util_Model Util_Spec Match_Spec Start_Spec Opt_Model Opt_Spec Opt_Proofs Opt2_Proofs Lines_Proofs Ctl_Model Ctl_Spec Ctl_Proofs Ctl2_Proofs.

(** ** C81

    On a host where the configuration is there, whatever load-balancers and
    commands do and however they are interleaved: no process dies on the
    object, and a load-balancer uses the level and the mask that were set last. *)
Theorem C81_there : forall w0 l m tr w,
  c_obj w0 = Some (Some (l, m)) -> (forall i, ~ making w0 i) -> cexecBy anything w0 tr w -> registers l m tr.
Proof. intros w0 l m tr w H1 H2 E. exact (proj1 (there_ok anything l m w0 tr w H1 H2 E)). Qed.
Print Assumptions C81_there.

(** So it is from the beginning, with level 5 and mask 0, if no process is
    started while another one is starting.
    Missing: without this condition it is false, see below. *)
Theorem C81_registers_partial : forall tr w, cexecBy one_at_a_time cstart tr w -> registers 5 0 tr.
Proof. intros tr w E. exact (proj1 (one_ok tr w E)). Qed.
Print Assumptions C81_registers_partial.

(** loglevel with a number, left alone, sets this level, prints it and ends with
    status 0. *)
Theorem C81_loglevel : forall tr w k its tail wd more n,
  cexecBy one_at_a_time cstart tr w -> c_procs w k = Off ->
  Forall (item_ok noOpts) its -> rest_words its tail = wd :: more -> is_num wd n ->
  exists i w' t, is_num t n /\
    crun w (LLevel k (line its tail) :: repeat (LStep k) i) = Some (w', [SetsLevel k n; Prints k (str "loglevel=" ++ t ++ [10]); Ends k 0]).
Proof.
  intros tr w k its tail wd more n E H F R N. destruct (level_set tr w k its tail wd more n E H F R N) as (i & w' & t & C & T).
  exists i, w', t. split; assumption.
Qed.
Print Assumptions C81_loglevel.

(** loglevel alone prints the level that was set last and sets nothing. *)
Theorem C81_loglevel_shows : forall tr w k its tail,
  cexecBy one_at_a_time cstart tr w -> c_procs w k = Off ->
  Forall (item_ok noOpts) its -> rest_words its tail = [] -> - 2147483648 <= level_after 5 tr <= 2147483647 ->
  exists i w' t, is_num t (level_after 5 tr) /\
    crun w (LLevel k (line its tail) :: repeat (LStep k) i) = Some (w', [Prints k (str "loglevel=" ++ t ++ [10]); Ends k 0]).
Proof.
  intros tr w k its tail E H F R N. destruct (level_shown tr w k its tail E H F R N) as (i & w' & t & C & T).
  exists i, w', t. split; assumption.
Qed.
Print Assumptions C81_loglevel_shows.

(** trace --selection, left alone and with a server: prints the mask, sets it
    to the union of the areas named, then copies what the server sends, and ends
    with 0 when the server is done. *)
Theorem C81_trace_selection : forall tr w k its tail s ts,
  cexecBy one_at_a_time cstart tr w -> c_procs w k = Off ->
  Forall (item_ok traceOpts) its -> value_of traceOpts its "mask" None -> value_of traceOpts its "selection" (Some s) ->
  exists i w' h x l, zlen h = 8 /\ is_hex h x /\ pieces (str ",") s l /\
   (forall j, 0 <= j -> (Z.testbit x j = true <-> exists t, In t l /\ In (t, j) areas)) /\
   crun w (LTrace k (line its tail) :: repeat (LStep k) i ++ map (LText k) ts ++ [LEof k]) =
    Some (w', Prints k (str "Mask=0x" ++ h ++ [10]) :: SetsMask k x :: map (Prints k) ts ++ [Ends k 0]).
Proof. exact trace_selected. Qed.
Print Assumptions C81_trace_selection.

(** ... and trace --mask sets this mask. *)
Theorem C81_trace_mask : forall tr w k its tail s v ts,
  cexecBy one_at_a_time cstart tr w -> c_procs w k = Off ->
  Forall (item_ok traceOpts) its -> value_of traceOpts its "mask" (Some s) -> value_of traceOpts its "selection" None ->
  Match_Spec.number s v -> 0 <= v < two32 ->
  exists i w' h, zlen h = 8 /\ is_hex h v /\
   crun w (LTrace k (line its tail) :: repeat (LStep k) i ++ map (LText k) ts ++ [LEof k]) =
    Some (w', Prints k (str "Mask=0x" ++ h ++ [10]) :: SetsMask k v :: map (Prints k) ts ++ [Ends k 0]).
Proof. exact trace_masked. Qed.
Print Assumptions C81_trace_mask.

(** False without conditions: of two load-balancers that start on a host without
    the configuration, the second truncates it under the first, which dies
    by SIGBUS when it looks at the log level. *)
Theorem C81_crash_refuted : exists tr w, cexecBy anything cstart tr w /\ In (Crashes 1) tr.
Proof. exact both_make. Qed.
Print Assumptions C81_crash_refuted.

(** False: a level that was set, and printed by loglevel, stays set.  A load-balancer
    that was starting resets it. *)
Theorem C81_lost_refuted : exists tr w, cexecBy anything cstart tr w /\
  exists t1 t2 t3, tr = t1 ++ SetsLevel 2 7 :: t2 ++ Prints 2 (str "loglevel=7" ++ [10]) :: t3 ++ [SeesLevel 1 5] /\
    Forall (fun o => forall k v, o <> SetsLevel k v) (t2 ++ t3).
Proof. exact level_lost. Qed.
Print Assumptions C81_lost_refuted.

(** False: a trace command that fails changes nothing.  When no server
    listens it ends with 1 after it has set the mask, and every load-balancer
    traces from then on. *)
Theorem C81_failed_trace_refuted : forall tr w k its tail ms sel x,
  cexecBy one_at_a_time cstart tr w -> c_procs w k = Off ->
  Forall (item_ok traceOpts) its -> value_of traceOpts its "mask" ms -> value_of traceOpts its "selection" sel ->
  cmdTrace_mask ms sel = Ok x ->
  exists i w' h, crun w (LTrace k (line its tail) :: repeat (LStep k) i ++ [LFails k]) =
    Some (w', [Prints k (str "Mask=0x" ++ h ++ [10]); SetsMask k x; Ends k 1]) /\
   forall j, c_procs w' j = Serve -> cstep w' (LMask j) = Some (w', [SeesMask j x]).
Proof. exact mask_stays. Qed.
Print Assumptions C81_failed_trace_refuted.

(** False: a word that is no number is refused.  It is taken as level 0. *)
Theorem C81_words_refuted : exists w ob,
  crun cstart (LLevel 1 [str "debug"] :: repeat (LStep 1) 7) = Some (w, ob) /\ ob = [SetsLevel 1 0; Prints 1 (str "loglevel=0" ++ [10]); Ends 1 0].
Proof. eexists. eexists. split; [reflexivity|reflexivity]. Qed.
Print Assumptions C81_words_refuted.

(** A history with two load-balancers and both commands *)
Example C81_ex : exists w,
  crun cstart (LLb 1 :: repeat (LStep 1) 5 ++ LLevel 2 [str "7"] :: repeat (LStep 2) 4 ++ LLb 3 :: repeat (LStep 3) 2 ++
    [LLook 1; LLook 3] ++ LTrace 4 [str "--selection=frag,log"] :: repeat (LStep 4) 4 ++ [LMask 1; LText 4 (str "hello"); LMask 3; LClear 1; LMask 3; LEof 4]) =
  Some (w, [SetsLevel 2 7; Prints 2 (str "loglevel=7" ++ [10]); Ends 2 0; SeesLevel 1 7; SeesLevel 3 7;
    Prints 4 (str "Mask=0x00000005" ++ [10]); SetsMask 4 5; SeesMask 1 5; Prints 4 (str "hello"); SeesMask 3 5; SetsMask 1 0; SeesMask 3 0; Ends 4 0]).
Proof. eexists. reflexivity. Qed.
Definition ex_line : list item := [GivenEq true (str "selection") (str "frag,log")].
Example C81_line_ex : line ex_line None = [str "--selection=frag,log"] /\ Forall (item_ok traceOpts) ex_line /\
  value_of traceOpts ex_line "mask" None /\ value_of traceOpts ex_line "selection" (Some (str "frag,log")).
Proof.
  split; [reflexivity|]. destruct trace_table as (T & R).
  assert (F : Forall (item_ok traceOpts) ex_line).
  { repeat constructor; cbn [item_ok]. exists 2, (text "selection"). split; [apply findOpt_denotes; [exact T|reflexivity]|]. repeat split; [rewrite flag_takes; discriminate|discriminate]. }
  split; [exact F|]. destruct (line_read traceOpts ex_line None T F (none_missing _ _ R)) as (vals & P & _ & V).
  vm_compute in P. injection P as <-. split; [exists 1, (text "mask")|exists 2, (text "selection")]; (split; [reflexivity|split; [reflexivity|apply V; reflexivity]]).
Qed.
