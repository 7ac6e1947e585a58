(** Histories in which log and trace fail *)
From Coq Require Import String.
From Verif Require Import Base Lists Cstr_Model Util_Proofs Log_Model Log_Spec Log_Proofs Log2_Proofs Log3_Proofs Log4_Proofs.
Set Default Goal Selector "!".

(** ** Deciding along a run *)

Fixpoint alongb (P : state -> event -> bool) (s : state) (es : list event) : bool :=
  match es with
  | [] => true
  | e :: r => P s e && match step s e with None => true | Some s1 => alongb P s1 r end
  end.

Lemma alongb_ok (P : state -> event -> bool) (Q : state -> event -> Prop) : (forall s e, P s e = true -> Q s e) ->
  forall es s, alongb P s es = true -> along Q s es.
Proof.
  intros H. induction es as [|e r IH]; intros s A; [exact I|]. cbn in A |- *. apply andb_prop in A. destruct A as [A B]. split; [auto|].
  destruct (step s e); auto.
Qed.

Definition isNone (o : option nat) : bool := match o with None => true | Some _ => false end.
Definition cleanb (s : state) (e : event) : bool := negb (opens e) || isNone (stale (pc s)).
Lemma cleanb_ok s e : cleanb s e = true -> clean s e.
Proof. unfold cleanb, clean, isNone. destruct (opens e); [|discriminate]. destruct (stale (pc s)); [discriminate|auto]. Qed.

(** Descriptors from 4 on are not used in these histories. *)
Definition opensAt (e : event) : nat := match e with EServe d _ | FAccept d | FDup d | FMap _ d => d | _ => 0%nat end.
Definition small (s : state) : Prop := forall d, (3 < d)%nat -> fds s d = None.

Lemma small_step s e s1 : I1 s -> small s -> (opensAt e <= 3)%nat -> step s e = Some s1 -> small s1.
Proof.
  intros J H O E. pose proof (step_runs s e s1 E) as Ru. unfold step in E. rewrite Ru in E.
  assert (SM : forall s2, fds s2 = fds s -> small s2) by (intros s2 X d L; rewrite X; auto).
  assert (OP : forall s2 d x, fds s2 = upd (fds s) d x -> (d <= 3)%nat -> small s2).
  { intros s2 d x X L d0 L0. rewrite X. unfold upd. destruct (Nat.eqb_spec d0 d); [lia|auto]. }
  assert (CL : forall s2 d, fds s2 = upd (fds s) d None -> small s2).
  { intros s2 d X d0 L0. rewrite X. unfold upd. destruct (Nat.eqb_spec d0 d); auto. }
  destruct e; try (injection E as <-; apply SM; auto; fail).
  - destruct t; [discriminate|]. destruct (ems s (S t)); try discriminate. injection E as <-.
    pose proof (traces_same s (S t) m l) as Y. cbv zeta in Y. decompose [and] Y. apply SM; auto.
  - destruct t; [discriminate|]. destruct (ems s (S t)); try discriminate. injection E as <-.
    pose proof (logs_same s (S t) v l) as Y. cbv zeta in Y. decompose [and] Y. apply SM; auto.
  - pose proof (emit_same s t s1 J E) as Y. decompose [and] Y. apply SM; auto.
  - cbn in O. unfold serve in E. destruct (ems s 0%nat); try discriminate.
    assert (LG : forall v l p, small (wPc p (logs s 0 v l))).
    { intros v l p. pose proof (logs_same s 0 v l) as Y. cbv zeta in Y. decompose [and] Y. apply SM; auto. }
    destruct (pc s) as [ | |cd|cd|cd|cd|cd|cd|cd|cd|cd|cd|cd|cd|cd|cd|cd|cd|cd|cd|cd| | | ] eqn:P; try (injection E as <-; first [apply LG | apply SM; reflexivity | eapply CL; reflexivity]; fail).
    + destruct ok; [|injection E as <-; apply SM; auto]. destruct (tq s); [discriminate|]. destruct (lowest s d); [|discriminate]. injection E as <-. eapply OP; [reflexivity|auto].
    + destruct cd; injection E as <-; [apply SM; auto|apply LG].
    + destruct (lock s); [discriminate|]. injection E as <-. apply SM; auto.
    + destruct ok; injection E as <-; apply SM; auto.
    + injection E as <-. destruct (tf s); [| |destruct (files s f)]; apply SM; auto.
    + destruct (fds s cd) as [[x|n|]|]; try (injection E as <-; apply SM; auto; fail). destruct (gone s x || sent s x); [|discriminate]. injection E as <-. apply SM; auto.
    + destruct (lock s); [discriminate|]. injection E as <-. apply SM; auto.
    + injection E as <-. destruct (tf s); [| |destruct (files s f)]; try (apply SM; reflexivity). eapply CL; reflexivity.
  - destruct (flow s); [|discriminate]. destruct (fq s); [discriminate|]. destruct (lowest s d); [|discriminate]. injection E as <-. eapply OP; [reflexivity|auto].
  - destruct (flow s); [discriminate|]. apply write_same in E. decompose [and] E. apply SM; auto.
  - destruct (flow s) as [|cd [x|]]; try discriminate. destruct (lowest s d); [|discriminate]. injection E as <-. eapply OP; [reflexivity|auto].
  - destruct (flow s) as [|cd [x|]]; try discriminate. apply write_same in E. decompose [and] E. apply SM; auto.
  - destruct (flow s) as [|cd out]; [discriminate|]. injection E as <-. destruct out as [x|]; [|eapply CL; reflexivity].
    intros d L. cbn. unfold upd. destruct (Nat.eqb d x); [auto|]. destruct (Nat.eqb d cd); auto.
  - destruct (lowest s d); [|discriminate]. injection E as <-. eapply OP; [reflexivity|auto].
  - destruct (existsb _ _); [|discriminate]. destruct (fds s d); injection E as <-; [eapply CL; reflexivity|apply SM; auto].
  - injection E as <-. destruct trace; apply SM; auto.
  - destruct (Nat.ltb _ _); [|discriminate]. injection E as <-. apply SM; auto.
  - destruct (_ && _); [|discriminate]. injection E as <-. apply SM; auto.
  - destruct (Nat.ltb _ _); [|discriminate]. injection E as <-. apply SM; auto.
  - destruct (Nat.ltb _ _); [|discriminate]. injection E as <-. apply SM; auto.
Qed.

Definition politeb (s : state) (e : event) : bool :=
  match e with
  | EGone c => forallb (fun y => negb (Nat.eqb y c)) (tq s ++ fq s) &&
               forallb (fun d => match fds s d with
                                 | Some (OConn x) => if Nat.eqb x c then match listening (pc s) with Some y => Nat.eqb y d | None => false end else true
                                 | _ => true end) (seq 0 4)
  | _ => true
  end.

Lemma politeb_ok s e : small s -> politeb s e = true -> polite s e.
Proof.
  intros Sm H c ->. cbn [politeb] in H. apply andb_prop in H. destruct H as [A B]. rewrite forallb_forall in A, B. split.
  - intros X. apply A in X. rewrite Nat.eqb_refl in X. discriminate.
  - intros d X. assert (L : (d <= 3)%nat). { destruct (le_lt_dec d 3); [auto|]. rewrite Sm in X by auto. discriminate. }
    assert (Q : In d (seq 0 4)) by (apply in_seq; lia). apply B in Q. rewrite X, Nat.eqb_refl in Q. destruct (listening (pc s)) as [y|]; [|discriminate]. apply Nat.eqb_eq in Q. subst; auto.
Qed.

(** An orderly and a polite history, decided *)
Definition checked (cl : bool) (s : state) (e : event) : bool := (negb cl || cleanb s e) && politeb s e && Nat.leb (opensAt e) 3.

Lemma checked_along (cl : bool) es : forall s, I1 s -> small s -> alongb (checked cl) s es = true ->
  along (fun s e => (cl = true -> clean s e) /\ polite s e) s es.
Proof.
  induction es as [|e r IH]; intros s J Sm A; [exact I|]. cbn in A |- *. apply andb_prop in A. destruct A as [A B]. unfold checked in A.
  apply andb_prop in A. destruct A as [A C]. apply andb_prop in A. destruct A as [A D]. apply Nat.leb_le in C. split.
  - split; [|apply politeb_ok; auto]. intros ->. apply cleanb_ok. exact A.
  - destruct (step s e) as [s1|] eqn:E; [|auto]. apply IH; auto; [apply step_I1 with s e; auto|apply small_step with s e; auto].
Qed.

Lemma start_small m v : small (start 3 m v).
Proof. intros d L. cbn [start fds]. replace (d <? 3)%nat with false; [auto|]. symmetry. apply Nat.ltb_ge. lia. Qed.

Lemma orderly_run m v es s : run (start 3 m v) es = Some s -> alongb (checked true) (start 3 m v) es = true -> reachedBy orderly es s.
Proof.
  intros R A. exists 3%nat, m, v. split; [auto|]. apply checked_along in A; [|apply start_I1|apply start_small].
  eapply along_impl; [|exact A]. intros s0 e0 [X Y]. split; auto.
Qed.
Lemma polite_run m v es s : run (start 3 m v) es = Some s -> alongb (checked false) (start 3 m v) es = true -> reachedBy polite es s.
Proof.
  intros R A. exists 3%nat, m, v. split; [auto|]. apply checked_along in A; [|apply start_I1|apply start_small].
  eapply along_impl; [|exact A]. intros s0 e0 [X Y]. auto.
Qed.

Definition serves (k : nat) : list event := repeat (EServe 0 true) k.
Definition emits (k : nat) : list event := repeat (EEmit 0) k.

(** The server accepts on descriptor 3 and waits for the client *)
Definition opened : list event := EServe 0 true :: EServe 3 true :: serves 8 ++ emits 4 ++ serves 1.
(** From the end of the wait to the end of fclose *)
Definition closing : list event := serves 2 ++ emits 4 ++ serves 3.

Definition ends (s : option state) (P : state -> bool) : bool := match s with None => false | Some s => P s end.
Definition isSt (x : status) (s : state) : bool := match x, st s with Runs, Runs | Killed, Killed | Died, Died => true | _, _ => false end.
Definition atPc (p : spc -> bool) (s : state) : bool := p (pc s).

(** *** A trace client that leaves at once *)
Definition deadRun : list event := [EConnect true; EGone 0; EServe 0 true; EServe 3 true] ++ serves 8 ++ emits 3.

Lemma dead_run : exists s, run (start 3 0 0) deadRun = Some s /\ st s = Killed.
Proof.
  assert (E : ends (run (start 3 0 0) deadRun) (isSt Killed) = true) by (vm_compute; reflexivity).
  destruct (run (start 3 0 0) deadRun) as [s|]; [|discriminate]. exists s. split; [auto|]. cbn in E. unfold isSt in E. destruct (st s); auto; discriminate.
Qed.

(** *** A flow client that leaves before its reply *)
Lemma lowest_start n m v : lowest (start n m v) n = true.
Proof.
  unfold lowest, start. cbn [fds]. replace (n <? n)%nat with false by (symmetry; apply Nat.ltb_irrefl).
  apply forallb_forall. intros i I. apply in_seq in I. replace (i <? n)%nat with true by (symmetry; apply Nat.ltb_lt; lia). auto.
Qed.

Lemma flow_gone n m v l : exists s, run (start n m v) [EConnect false; FAccept n; EGone 0; FReply l] = Some s /\ st s = Killed.
Proof.
  set (s1 := newConn (wQ [] [0%nat] (start n m v))).
  assert (E1 : step (start n m v) (EConnect false) = Some s1) by reflexivity.
  assert (L1 : lowest s1 n = true) by exact (lowest_start n m v).
  set (s2 := wFlow (FServe n None) (wQ [] [] (wFd n (Some (OConn 0)) s1))).
  assert (E2 : step s1 (FAccept n) = Some s2). { unfold step. change (st s1) with Runs. change (flow s1) with FIdle. change (fq s1) with [0%nat]. cbv iota. rewrite L1. reflexivity. }
  assert (E3 : step s2 (EGone 0) = Some (wGone 0 true s2)) by reflexivity.
  exists (wSt Killed (wGone 0 true s2)). split; [|reflexivity]. cbn [run]. rewrite E1, E2, E3.
  assert (E4 : step (wGone 0 true s2) (FReply l) = Some (wSt Killed (wGone 0 true s2))).
  { unfold step. change (st (wGone 0 true s2)) with Runs. change (flow (wGone 0 true s2)) with (FServe n None). cbv iota. unfold write.
    change (fds (wGone 0 true s2) n) with (upd (fds s1) n (Some (OConn 0%nat)) n). rewrite upd_same. reflexivity. }
  rewrite E4. reflexivity.
Qed.

(** *** The mask *)
Definition maskRun : list event := [EConnect true] ++ opened ++ [EMask 2; EConnect true; EGone 0] ++ closing ++ serves 5 ++ opened.


Definition maskEnd (s : state) : bool :=
  isSt Runs s && negb (gone s 1) && negb (full s 1) && (mask s =? 0) && atPc (fun p => match p with S122 3 => true | _ => false end) s &&
  match fds s 3 with Some (OConn 1) => true | _ => false end && match ems s 1 with Idle => true | _ => false end.

(** The client sets the mask and connects; when it is served the mask is 0. *)
Lemma mask_lost : exists s, reachedBy orderly maskRun s /\ st s = Runs /\ session s 1 /\ gone s 1%nat = false /\ full s 1%nat = false /\ mask s = 0 /\ ems s 1%nat = Idle.
Proof.
  assert (A : alongb (checked true) (start 3 0 0) maskRun = true) by (vm_compute; reflexivity).
  assert (E : ends (run (start 3 0 0) maskRun) maskEnd = true) by (vm_compute; reflexivity).
  destruct (run (start 3 0 0) maskRun) as [s|] eqn:R; [|discriminate]. exists s. split; [exact (orderly_run 0 0 _ _ R A)|clear A R].
  cbn [ends] in E. unfold maskEnd, isSt, atPc in E. repeat (apply andb_prop in E; destruct E as [E ?]).
  destruct (st s); try discriminate. split; [auto|]. destruct (ems s 1); try discriminate. destruct (gone s 1); [discriminate|]. destruct (full s 1); [discriminate|].
  destruct (pc s) eqn:P; try discriminate. do 4 (destruct cd as [|cd]; try discriminate). destruct (fds s 3) as [[c| |]|] eqn:F; try discriminate.
  do 2 (destruct c as [|c]; try discriminate).
  split; [exists 3%nat; auto 10|]. repeat split; auto. apply Z.eqb_eq. auto.
Qed.

(** *** The stale descriptor *)
Definition staleRun : list event := [EConnect true] ++ opened ++ [EGone 0] ++ closing.

(** A flow client gets the number, and loses its connection. *)
Definition lostRun : list event := staleRun ++ [EConnect false; FAccept 3] ++ serves 2 ++ [FReply (str "OK"); FClose].
Definition lostEnd (s : state) : bool := isSt Runs s && negb (gone s 1) && negb (full s 1) && match got s 1 with [] => true | _ => false end && match fq s with [] => true | _ => false end.

Lemma reply_lost : exists s, reachedBy polite lostRun s /\ st s = Runs /\ isFlow lostRun 1 /\ In (FReply (str "OK")) lostRun /\ fq s = [] /\ gone s 1%nat = false /\ full s 1%nat = false /\ got s 1%nat = [].
Proof.
  assert (A : alongb (checked false) (start 3 0 0) lostRun = true) by (vm_compute; reflexivity).
  assert (E : ends (run (start 3 0 0) lostRun) lostEnd = true) by (vm_compute; reflexivity).
  destruct (run (start 3 0 0) lostRun) as [s|] eqn:R; [|discriminate]. exists s. split; [exact (polite_run 0 0 _ _ R A)|clear A R].
  cbn [ends] in E. unfold lostEnd, isSt in E. repeat (apply andb_prop in E; destruct E as [E ?]).
  destruct (st s); try discriminate. split; [auto|]. destruct (gone s 1); [discriminate|]. destruct (full s 1); [discriminate|]. destruct (got s 1); [|discriminate]. destruct (fq s); [|discriminate].
  split; [vm_compute; reflexivity|]. split; [|auto]. unfold lostRun. apply in_or_app. right. cbn. auto 10.
Qed.

(** A load-balancer gets the number; when it is released flowlb exits. *)
Definition diedRun : list event := staleRun ++ [FMap (str "lb") 3] ++ serves 2 ++ [LRelease (str "lb") 3].

Lemma lb_dies : exists s, reachedBy polite diedRun s /\ st s = Died.
Proof.
  assert (A : alongb (checked false) (start 3 0 0) diedRun = true) by (vm_compute; reflexivity).
  assert (E : ends (run (start 3 0 0) diedRun) (isSt Died) = true) by (vm_compute; reflexivity).
  destruct (run (start 3 0 0) diedRun) as [s|] eqn:R; [|discriminate]. exists s. split; [exact (polite_run 0 0 _ _ R A)|clear A R].
  cbn [ends] in E. unfold isSt in E. destruct (st s); auto; discriminate.
Qed.

(** *** Histories that meet the hypotheses of the theorems *)

(** Thread 1 traces to a client that is served *)
Definition goodRun : list event := [EMask 3; EConnect true] ++ opened.
Definition goodEnd (s : state) : bool :=
  isSt Runs s && negb (gone s 0) && negb (full s 0) && (mask s =? 3) && (level s =? 0) && atPc (fun p => match p with S122 3 => true | _ => false end) s &&
  match fds s 3 with Some (OConn 0) => true | _ => false end && match ems s 1 with Idle => true | _ => false end && match lock s with None => true | _ => false end.

Lemma good_run : exists s, reachedBy orderly goodRun s /\ st s = Runs /\ session s 0 /\ pc s = S122 3 /\ gone s 0%nat = false /\ full s 0%nat = false /\ mask s = 3 /\ level s = 0 /\ ems s 1%nat = Idle /\ lock s = None.
Proof.
  assert (A : alongb (checked true) (start 3 0 0) goodRun = true) by (vm_compute; reflexivity).
  assert (E : ends (run (start 3 0 0) goodRun) goodEnd = true) by (vm_compute; reflexivity).
  destruct (run (start 3 0 0) goodRun) as [s|] eqn:R; [|discriminate]. exists s. split; [exact (orderly_run 0 0 _ _ R A)|clear A R].
  cbn [ends] in E. unfold goodEnd, isSt, atPc in E. repeat (apply andb_prop in E; destruct E as [E ?]).
  destruct (st s); try discriminate. split; [auto|]. destruct (ems s 1); try discriminate. destruct (gone s 0); [discriminate|]. destruct (full s 0); [discriminate|]. destruct (lock s); [discriminate|].
  destruct (pc s) eqn:P; try discriminate. do 4 (destruct cd as [|cd]; try discriminate). destruct (fds s 3) as [[c| |]|] eqn:F; try discriminate.
  destruct c as [|c]; try discriminate.
  split; [exists 3%nat; auto 10|]. repeat split; auto; apply Z.eqb_eq; auto.
Qed.

(** Nothing that is traced then reaches the client, though it had set the
    mask before it connected and is served. *)
Definition quietEvent (e : event) : bool := match e with ETrace _ _ _ | ELog _ _ _ => false | _ => true end.
Lemma not_traced es l : forallb quietEvent es = true -> ~ traced es l.
Proof. intros H. rewrite forallb_forall in H. intros [(t & m & X)|(t & v & X)]; apply H in X; discriminate. Qed.

Lemma mask_unseen : exists es1 es2 s, reachedBy orderly (es1 ++ EMask 2 :: EConnect true :: es2) s /\ (forall m, ~ In (EMask m) es2) /\ length (connects es1) = 1%nat /\
  st s = Runs /\ session s 1 /\ gone s 1%nat = false /\ full s 1%nat = false /\
  forall es s1, along (fun s e => clean s e /\ forall m, e <> EMask m) s es -> run s es = Some s1 -> forall l, In l (got s1 1%nat) -> ownText l.
Proof.
  destruct mask_lost as (s & R & A1 & A2 & A3 & A4 & A5 & A6).
  exists ([EConnect true] ++ opened), (EGone 0 :: closing ++ serves 5 ++ opened), s. split; [exact R|]. split.
  { intros m X. cbn in X. repeat (destruct X as [X|X]; [discriminate|]). contradiction. }
  split; [reflexivity|]. split; [exact A1|]. split; [exact A2|]. split; [exact A3|]. split; [exact A4|]. intros es s1 Al Ru l G.
  assert (Rc : reachedBy clean maskRun s) by (apply reachedBy_impl with orderly; [intros s0 e0 [X _]; exact X|exact R]).
  destruct (reached_I3 _ _ Rc) as (J & K & X).
  assert (NT : forall l, ~ traced maskRun l) by (intros l0; apply not_traced; reflexivity).
  assert (T : isTrace maskRun 1) by reflexivity.
  destruct (mask_run 1 es maskRun s s1 J K Al Ru A5) as [_ Q].
  - intros t l0 W. destruct (x_em _ _ X t l0) as [Y|Y]; [|destruct (NT _ Y)|exact Y]. destruct (ems s t); try discriminate; exact W.
  - exact T.
  - destruct (Q l G) as [Y|Y]; [|exact Y]. destruct (x_got _ _ X 1%nat l Y) as (_ & Z & _). destruct (Z T) as [V|V]; [destruct (NT _ V)|exact V].
Qed.

(** *** A history that stalls *)
Definition stallRun : list event := goodRun ++ [ETrace 1 2 (str "one"); EEmit 1; EEmit 1; EFull 0; ETrace 2 2 (str "two")].
Definition stallEnd (s : state) : bool :=
  isSt Runs s && negb (gone s 0) && full s 0 && atPc (fun p => match p with S122 3 => true | _ => false end) s &&
  match fds s 3 with Some (OConn 0) => true | _ => false end && match ems s 1 with Print _ => true | _ => false end && match ems s 2 with Want _ => true | _ => false end.
Lemma stall_run : exists s l l2, reachedBy orderly stallRun s /\ st s = Runs /\ ems s 1%nat = Print l /\ ems s 2%nat = Want l2 /\ session s 0 /\ gone s 0%nat = false /\ full s 0%nat = true.
Proof.
  assert (A : alongb (checked true) (start 3 0 0) stallRun = true) by (vm_compute; reflexivity).
  assert (E : ends (run (start 3 0 0) stallRun) stallEnd = true) by (vm_compute; reflexivity).
  destruct (run (start 3 0 0) stallRun) as [s|] eqn:R; [|discriminate].
  pose proof (orderly_run 0 0 _ _ R A) as RB. clear A R.
  cbn [ends] in E. unfold stallEnd, isSt, atPc in E. repeat (apply andb_prop in E; destruct E as [E ?]).
  destruct (st s) eqn:St; try discriminate. destruct (ems s 1) eqn:E1; try discriminate. destruct (ems s 2) eqn:E2; try discriminate. destruct (gone s 0) eqn:G; [discriminate|].
  destruct (pc s) eqn:P; try discriminate. do 4 (destruct cd as [|cd]; try discriminate). destruct (fds s 3) as [[c| |]|] eqn:F; try discriminate.
  destruct c as [|c]; try discriminate. exists s, l, l0. split; [exact RB|]. repeat (split; [first [assumption|exists 3%nat; auto 10]|]). auto.
Qed.

Lemma stall_all : exists es s, reachedBy orderly es s /\ st s = Runs /\ session s 0 /\ (exists l, ems s 2%nat = Want l) /\ gone s 0%nat = false /\
  forall es2 s1, along (fun s e => clean s e /\ e <> EGone 0 /\ e <> EDrain 0) s es2 -> run s es2 = Some s1 -> lock s1 = Some 1%nat /\ ems s1 2%nat = ems s 2%nat.
Proof.
  destruct stall_run as (s & l & l2 & R & A1 & A2 & A3 & A4 & A5 & A6). exists stallRun, s. split; [exact R|]. split; [exact A1|]. split; [exact A4|]. split; [eauto|]. split; [exact A5|].
  intros es2 s1 Al Ru. assert (Rc : reachedBy clean stallRun s) by (apply reachedBy_impl with orderly; [intros s0 e0 [Q _]; exact Q|exact R]).
  destruct (stalls stallRun s 1 l 0 es2 s1 Rc A2 A4 A5 A6 Al Ru) as [X Y]. split; [exact X|]. rewrite (Y 2%nat l2 A3). symmetry. exact A3.
Qed.

(** *** A client that is gone is accepted *)
Lemma run_app a b : forall s, run s (a ++ b) = match run s a with Some s1 => run s1 b | None => None end.
Proof. induction a as [|e r IH]; intros s; [reflexivity|]. cbn. destruct (step s e); auto. Qed.
Lemma gone_waits : exists s, reachedBy clean [EConnect true; EGone 0; EServe 0 true] s /\ pc s = S99 /\ tq s = [0%nat] /\ gone s 0%nat = true /\ exists s1, run s (EServe 3 true :: serves 8 ++ emits 3) = Some s1 /\ st s1 = Killed.
Proof.
  destruct dead_run as (s1 & R & K). change deadRun with ([EConnect true; EGone 0; EServe 0 true] ++ (EServe 3 true :: serves 8 ++ emits 3)) in R. rewrite run_app in R.
  destruct (run (start 3 0 0) [EConnect true; EGone 0; EServe 0 true]) as [s|] eqn:E; [|discriminate].
  exists s. split; [exists 3%nat, 0, 0; split; [exact E|cbn; repeat split; discriminate]|].
  assert (X : pc s = S99 /\ tq s = [0%nat] /\ gone s 0%nat = true) by (cbn in E; injection E as <-; repeat split). destruct X as (X1 & X2 & X3).
  split; [exact X1|]. split; [exact X2|]. split; [exact X3|]. exists s1. split; [exact R|exact K].
Qed.
