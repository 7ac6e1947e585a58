(** Requests are answered in a bounded number of steps (C64). *)
From Coq Require Import String.
From Verif Require Import Base Lists Cstr_Model Flow_Model Flow_Spec Remote_Model FlowLb_Model FlowLb_Spec FlowLb3_Proofs FlowLb4_Proofs FlowLb5_Proofs Requests_Spec Requests_Proofs.

(** At most n steps *)
Fixpoint within (n : nat) (p : prog) : Prop :=
  match p with
  | Ret _ => True
  | Act _ f =>
      match n with
      | O => False
      | S n => forall s, match f s with Next _ _ q => within n q | _ => True end
      end
  end.
Lemma within_more n p : within n p -> within (S n) p.
Proof.
  revert p. induction n as [|n IH]; intros [r|l f]; cbn [within]; auto; [contradiction|].
  intros H s. specialize (H s). destruct (f s); auto. apply IH. auto.
Qed.
Lemma within_le n m p : (n <= m)%nat -> within n p -> within m p.
Proof. induction 1; auto. intros W. apply within_more. auto. Qed.
Lemma within_act n l f : (forall s, match f s with Next _ _ q => within n q | _ => True end) -> within (S n) (Act l f).
Proof. auto. Qed.
Lemma within_ret n r : within n (Ret r).
Proof. destruct n; exact I. Qed.
Lemma within_stop n : within (S n) stop.
Proof. cbn. auto. Qed.
Lemma within_release n l a k : within n k -> within (3 + n) (release l a k).
Proof.
  intros K. unfold release. destruct (a =? 0); [apply (within_le n); [lia|auto]|]. apply within_act; intros s.
  destruct (deref s a); auto. destruct (_ <? 0); auto. destruct (_ =? 0); [|apply (within_le n); [lia|auto]].
  apply within_act; intros s2. destruct (deref s2 a); auto. destruct (unlink s2 (t_list s2) a); auto.
  apply within_act; intros s3. destruct (deref s3 a); auto.
Qed.
Lemma within_find n t k : (forall a, within n (k a)) -> within (S n) (findOrCreate t k).
Proof.
  intros K. unfold findOrCreate. destruct t as [c|]; [|apply within_more; auto]. apply within_act; intros s.
  destruct (search s (t_list s) c); auto; [destruct (t_shm s c); auto|destruct (lockRef s a); auto].
Qed.
Lemma within_define n L a k : within n k -> within (S n) (define L a k).
Proof.
  intros K. unfold define. apply within_act; intros s. destruct (flowDefine L (t_set s) a) as [[[e|] set]| | |]; auto. apply within_ret.
Qed.
Lemma within_setFlow L c a : within 2 (setFlow L c a).
Proof.
  unfold setFlow. destruct (a =? 0); [exact I|]. destruct (c_name c) as [n|]; [|apply within_stop].
  assert (M : within 1 (define L (cmdArgs c n a) (Ret (Reply "OK")))) by (apply within_define; exact I).
  destruct (c_udpencap c =? 0); [apply within_more; auto|]. destruct (c_protocols c) as [[|p [|]]|]; try exact I; [apply within_stop|].
  destruct (caseeq _ _); [|exact I]. destruct (_ <? _); [apply within_stop|]. apply within_define; auto.
Qed.
Lemma within_command L c : within 11 (command L c).
Proof.
  unfold command. destruct (c_action c) as [a|]; [|exact I]. destruct (prefix _ _); [exact I|].
  destruct (streq a (str "set")).
  { unfold cmd_set. assert (F : within 10 (findOrCreate (c_target c) (setFlow L c))).
    { apply within_find. intros x. apply (within_le 2); [lia|]. apply within_setFlow. }
    apply within_act; intros s. destruct (c_name c) as [n|] eqn:EN; [|destruct (t_set s); auto].
    destruct (findName (t_set s) n) as [f|]; auto. destruct (lockRef s (f_ref f)); auto.
    apply (within_release 7). destruct (negb _); [exact I|]. destruct (c_target c) as [t|]; [|apply within_stop].
    apply within_act; intros s1. destruct (deref s1 (f_ref f)); auto. destruct (streq t _); [apply (within_le 2); [lia|]; apply within_setFlow|].
    apply (within_find 5). intros x. destruct (x =? 0); [exact I|]. apply (within_release 2). apply within_setFlow. }
  destruct (streq a (str "delete")).
  { unfold cmd_delete. destruct (c_name c) as [n|]; [|exact I]. apply within_act; intros s. destruct (flowDelete (t_set s) n) as [r set'].
    apply (within_release 7). destruct (_ <? _); [|exact I]. destruct (_ <? _); [apply within_stop|]. apply within_act; intros; apply within_ret. }
  destruct (streq a (str "list")).
  { unfold cmd_list. apply within_act; intros s. destruct (forallb _ _); auto. apply within_ret. }
  destruct (streq a _); exact I.
Qed.

Lemma flow_steps_snoc tr m ev : flow_steps (tr ++ [(m, ev)]) = flow_steps tr + match m with FlowStep => 1 | _ => 0 end.
Proof. unfold flow_steps. rewrite filter_app. unfold zlen. rewrite app_length. destruct m; cbn; lia. Qed.

(** After a request the flow thread makes at most 11 steps, all of which are
    possible until it has answered. *)
Lemma answers_soon h may w1 c ev tr w2 : exec h may w1 ((Command c, ev) :: tr) w2 -> no_command tr ->
  0 <= flow_steps tr <= 11 /\ (flow_steps tr = 11 -> idle (w_flow w2) = true).
Proof.
  intros H NC. destruct (exec_cons _ _ _ _ _ H _ _ eq_refl) as (w' & _ & E & H'). cbn [fst snd step] in E. clear H.
  destruct (idle (w_flow w1)); [|discriminate]. injection E as <- <-.
  assert (G : exists n, within n (w_flow w2) /\ flow_steps tr + Z.of_nat n = 11).
  { remember (mkW (w_st w1) (command (h_lib h) c) (w_pk w1)) as w0 eqn:E0. revert E0.
    induction H' as [w|w0 tr w' m e w3 H IH M E]; intros E0.
    - subst w. exists 11%nat. split; [apply within_command|reflexivity].
    - assert (NC1 : no_command tr) by (intros c' e' X; eapply NC; apply in_or_app; left; exact X).
      destruct (IH NC1 E0) as (n & W & S). rewrite flow_steps_snoc. destruct m as [now done eth data|c'| |j|shm' mem']; cbn [step] in E.
      + injection E as <- <-. exists n. split; [exact W|lia].
      + exfalso. eapply NC. apply in_or_app. right. left. reflexivity.
      + destruct (w_flow w') as [r|l f]; [discriminate|]. destruct n as [|n]; [destruct W|]. cbn [within] in W. specialize (W (w_st w')).
        destruct (f (w_st w')) as [e' s' p'| |]; try discriminate. injection E as <- <-. exists n. split; [exact W|lia].
      + destruct (znth (w_pk w') j) as [[r|l f]|]; try discriminate. destruct (f (w_st w')) as [e' s' p'| |]; try discriminate.
        injection E as <- <-. exists n. split; [exact W|lia].
      + injection E as <- <-. exists n. split; [exact W|lia]. }
  destruct G as (n & W & S). assert (0 <= flow_steps tr) by (unfold flow_steps, zlen; lia). split; [lia|].
  intros F. assert (n = O) by lia. subst n. destruct (w_flow w2); [reflexivity|destruct W].
Qed.

(** The next step of a request *)
Lemma flow_goes_on h lo shm mem tr w : libc_ok (h_lib h) -> h_trace h = false ->
  exec h (survivable_move h lo) (start h shm mem) tr w -> orderly h w FlowStep -> idle (w_flow w) = false ->
  exists w' ev, step h w FlowStep = Some (Cont w' ev).
Proof.
  intros HL HT H O ID. destruct (never_halts h lo shm mem tr w HL HT H O) as (A & B). cbn [step] in *.
  destruct (w_flow w) as [r|l f]; [discriminate|]. destruct (f (w_st w)) as [ev s' p'| |]; [eauto|congruence|congruence].
Qed.

(** Requests that bring the flow thread down *)
Definition any_move (w : world) (m : move) : bool := true.
Definition halts_by (c : flowcmd) (ms : list move) : Prop :=
  exists tr w, exec (ex_h false) (fun _ m => commands_only m) (ex_start false) tr w /\
    (exists ms', ms ++ [Command c] ++ ms' = map fst tr /\ Forall (eq FlowStep) ms') /\ step (ex_h false) w FlowStep = Some Halt.
Definition halt_next (w : world) (tr : list (move * list event)) : bool :=
  match step (ex_h false) w FlowStep with Some Halt => true | _ => false end.
Lemma play_moves chk h ms : forall w w2 tr, play chk h w ms = Some (w2, tr) -> map fst tr = ms.
Proof.
  induction ms as [|m ms IH]; intros w w2 tr H; cbn [play] in H; [injection H as <- <-; reflexivity|].
  destruct (chk w m); [|discriminate]. destruct (step h w m) as [[w' ev| |]|]; try discriminate.
  destruct (play chk h w' ms) as [[w3 tr3]|] eqn:E; [|discriminate]. injection H as <- <-. cbn [map fst]. rewrite (IH _ _ _ E). reflexivity.
Qed.
Lemma halts_play c ms n : forallb (fun m => match m with Command _ => true | FlowStep => true | _ => false end) ms = true ->
  match play any_move (ex_h false) (ex_start false) (ms ++ [Command c] ++ fs n) with Some (w, tr) => halt_next w tr | None => false end = true ->
  halts_by c ms.
Proof.
  intros MS H. destruct (play any_move (ex_h false) (ex_start false) _) as [[w tr]|] eqn:E; [|discriminate].
  exists tr, w. split.
  - eapply play_exec; [|exact E]. intros w0 m HI _. apply in_app_or in HI. destruct HI as [HI|HI].
    + rewrite forallb_forall in MS. specialize (MS m HI). destruct m; try discriminate; exact I.
    + apply in_app_or in HI. destruct HI as [[<-|[]]|HI]; [exact I|]. apply repeat_spec in HI. subst m. exact I.
  - split.
    + exists (fs n). split; [symmetry; eapply play_moves; exact E|]. apply Forall_forall. intros m HI. apply repeat_spec in HI. auto.
    + unfold halt_next in H. destruct (step (ex_h false) w FlowStep) as [[| |]|]; try discriminate. reflexivity.
Qed.
Definition defined_a : list move := Command (plain "a" "t1") :: fs 3.
