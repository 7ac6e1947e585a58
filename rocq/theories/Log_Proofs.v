(** The lock and the trace file: no FILE is used that is not open. *)
From Coq Require Import String.
From Verif Require Import Base Lists Cstr_Model Log_Model Log_Spec.
Set Default Goal Selector "!".

Lemma upd_same A (g : nat -> A) i x : upd g i x i = x.
Proof. unfold upd. rewrite Nat.eqb_refl. reflexivity. Qed.

Lemma upd_other A (g : nat -> A) i x j : j <> i -> upd g i x j = g j.
Proof. intros H. unfold upd. apply Nat.eqb_neq in H. rewrite H. reflexivity. Qed.

Definition busy (e : estate) : bool := match e with Have _ | Print _ | Leave => true | _ => false end.
Definition crit (p : spc) : bool := match p with S106 _ | S108 _ | S113 _ | S114 _ | S132 _ | S133 _ | S134 _ | S135 => true | _ => false end.
Definition inSess (p : spc) : option nat :=
  match p with S113 d | S114 d | S116 d | S117 d | S120 d | S122 d | S128 d | S129 d | S131 d | S132 d => Some d | _ => None end.

Record I1 (s : state) : Prop := {
  i_st : st s <> Undef;
  i_busy : forall t, busy (ems s t) = true -> lock s = Some t;
  i_crit : crit (pc s) = true -> lock s = Some 0%nat /\ ems s 0%nat = Idle;
  i_owner : forall t, lock s = Some t -> busy (ems s t) = true \/ (t = 0%nat /\ crit (pc s) = true);
  i_file : forall f, tf s = TFile f -> exists d, (inSess (pc s) = Some d /\ files s f = Some d) \/ pc s = S133 d;
  i_sess : forall d, inSess (pc s) = Some d -> exists f, tf s = TFile f /\ files s f = Some d;
  i_new : forall f d, files s f = Some d -> (f < nfile s)%nat;
  i_print : forall t l, ems s t = Print l -> tf s <> TNull
}.

Lemma I1_same s1 s2 :
  I1 s1 -> st s2 <> Undef -> lock s2 = lock s1 -> tf s2 = tf s1 -> files s2 = files s1 -> nfile s2 = nfile s1 -> ems s2 = ems s1 -> pc s2 = pc s1 -> I1 s2.
Proof.
  intros [A B C D E F G H] S L T Fi N Em P. constructor; rewrite ?L, ?T, ?Fi, ?N, ?Em, ?P; auto.
Qed.

Lemma write_same s d l s1 : write s d l = Some s1 ->
  (st s1 = st s \/ st s1 = Killed) /\ lock s1 = lock s /\ tf s1 = tf s /\ files s1 = files s /\ nfile s1 = nfile s /\ ems s1 = ems s /\ pc s1 = pc s /\
  fds s1 = fds s /\ flow s1 = flow s /\ held s1 = held s /\ tq s1 = tq s /\ fq s1 = fq s /\ nconn s1 = nconn s /\ gone s1 = gone s /\ ign s1 = ign s /\
  mask s1 = mask s /\ level s1 = level s /\ full s1 = full s.
Proof.
  unfold write. destruct (fds s d) as [[c|n|]|]; try (intros H; injection H as <-; repeat split; auto; fail).
  destruct (gone s c) eqn:G.
  - intros H. injection H as <-. destruct (ign s) eqn:Ig; repeat split; auto.
  - destruct (full s c) eqn:F; [discriminate|]. intros H. injection H as <-. repeat split; auto.
Qed.

Lemma start_I1 n m v : I1 (start n m v).
Proof.
  constructor; cbn; try discriminate; auto.
Qed.

(** A thread other than those in the critical section changes its own place. *)
Lemma I1_em s t e :
  I1 s -> busy (ems s t) = busy e -> (crit (pc s) = true -> t <> 0%nat \/ e = Idle) ->
  (forall l, e = Print l -> tf s <> TNull) -> I1 (wEm t e s).
Proof.
  intros [A B C D E F G H] Bu Cr Pr. constructor; cbn; auto.
  - intros t0. unfold upd. destruct (Nat.eqb_spec t0 t) as [->|]; [rewrite <- Bu; apply B|apply B].
  - intros Hc. destruct (C Hc) as [L Id]. split; [auto|]. unfold upd. destruct (Nat.eqb_spec 0 t) as [<-|]; [|auto].
    destruct (Cr Hc) as [X|X]; [congruence|auto].
  - intros t0 L. destruct (D t0 L) as [X|X]; [left|right; auto]. unfold upd. destruct (Nat.eqb_spec t0 t) as [->|]; [rewrite <- Bu; auto|auto].
  - intros t0 l. unfold upd. destruct (Nat.eqb_spec t0 t) as [->|]; [apply Pr|apply H].
Qed.

Lemma I1_err s x : I1 s -> I1 (wErr x s).
Proof. intros H. apply I1_same with s; auto. exact (i_st s H). Qed.

Lemma logs_I1 s t v l : I1 s -> ems s t = Idle -> (crit (pc s) = true -> t <> 0%nat) -> I1 (logs s t v l).
Proof.
  intros H Id Cr. unfold logs. destruct (level s <? v); [auto|]. apply I1_em.
  - apply I1_err. auto.
  - cbn. rewrite Id. reflexivity.
  - cbn. auto.
  - discriminate.
Qed.

Lemma traces_I1 s t m l : I1 s -> ems s t = Idle -> (crit (pc s) = true -> t <> 0%nat) -> I1 (traces s t m l).
Proof.
  intros H Id Cr. unfold traces. destruct (Z.land (mask s) m =? 0); [auto|]. apply I1_em; auto.
  - rewrite Id. reflexivity.
  - discriminate.
Qed.

Lemma vprint_ok s t l s1 : I1 s -> ems s t = Print l -> vprint s l = Some s1 ->
  (st s1 = st s \/ st s1 = Killed) /\ lock s1 = lock s /\ tf s1 = tf s /\ files s1 = files s /\ nfile s1 = nfile s /\ ems s1 = ems s /\ pc s1 = pc s /\
  fds s1 = fds s /\ flow s1 = flow s /\ held s1 = held s /\ tq s1 = tq s /\ fq s1 = fq s /\ nconn s1 = nconn s /\ gone s1 = gone s /\ ign s1 = ign s /\
  mask s1 = mask s /\ level s1 = level s /\ full s1 = full s.
Proof.
  intros I Em V. unfold vprint in V. destruct (tf s) eqn:T.
  - exfalso. apply (i_print s I t l Em T).
  - injection V as <-. repeat split; auto.
  - destruct (i_file s I f T) as [d [[Hs Hf]|Hp]].
    + rewrite Hf in V. rewrite <- T. apply write_same with d l. exact V.
    + exfalso. assert (Lk : lock s = Some t) by (apply (i_busy s I); rewrite Em; reflexivity).
      assert (Cr : crit (pc s) = true) by (rewrite Hp; reflexivity). destruct (i_crit s I Cr) as [L0 Id]. rewrite Lk in L0. injection L0 as ->. congruence.
Qed.

Lemma emit_I1 s t s1 : st s = Runs -> I1 s -> emit s t = Some s1 -> I1 s1.
Proof.
  intros Ru I E. unfold emit in E. destruct (ems s t) eqn:Em.
  - discriminate.
  - injection E as <-. apply I1_em; auto.
    + rewrite Em. destruct (tf s); [|destruct (Z.land (mask s) 1 =? 0)..]; reflexivity.
    + intros Cr. destruct (i_crit s I Cr) as [_ Id]. left. intros ->. congruence.
    + intros l0. destruct (tf s); [|destruct (Z.land (mask s) 1 =? 0)..]; discriminate.
  - destruct (lock s) eqn:Lk; [discriminate|]. injection E as <-. destruct I as [A B C D E F G H]. constructor; cbn; auto.
    + intros t0. unfold upd. destruct (Nat.eqb_spec t0 t) as [->|]; [auto|]. intros X. apply B in X. congruence.
    + intros X. apply C in X. destruct X. congruence.
    + intros t0 X. injection X as <-. left. rewrite upd_same. reflexivity.
    + intros t0 l0. unfold upd. destruct (Nat.eqb_spec t0 t) as [->|]; [discriminate|apply H].
  - injection E as <-. assert (Lk : lock s = Some t) by (apply (i_busy s I); rewrite Em; reflexivity). apply I1_em; auto.
    + rewrite Em. destruct (tf s); reflexivity.
    + intros Cr. destruct (i_crit s I Cr) as [_ Id]. left. intros ->. congruence.
    + intros l0. destruct (tf s); intros X; discriminate.
  - destruct (vprint s l) as [s2|] eqn:V; [|discriminate]. injection E as <-.
    destruct (vprint_ok s t l s2 I Em V) as (St & L & T & Fi & N & Es & P & _). apply I1_em.
    + apply I1_same with s; auto. destruct St as [->| ->]; [rewrite Ru; discriminate|discriminate].
    + rewrite Es, Em. reflexivity.
    + rewrite P. intros Cr. destruct (i_crit s I Cr) as [_ Id]. left. intros ->. congruence.
    + discriminate.
  - injection E as <-. assert (Lk : lock s = Some t) by (apply (i_busy s I); rewrite Em; reflexivity).
    assert (NC : crit (pc s) = false). { destruct (crit (pc s)) eqn:Cr; [|auto]. destruct (i_crit s I Cr) as [L0 Id]. rewrite Lk in L0. injection L0 as ->. congruence. }
    destruct I as [A B C D E F G H]. constructor; cbn; auto.
    + intros t0. unfold upd. destruct (Nat.eqb_spec t0 t) as [->|X]; [discriminate|]. intros Y. apply B in Y. congruence.
    + congruence.
    + discriminate.
    + intros t0 l0. unfold upd. destruct (Nat.eqb_spec t0 t) as [->|]; [discriminate|apply H].
Qed.

(** The place of the server changes outside critical sections *)
Lemma I1_pc s p : I1 s -> crit (pc s) = false -> crit p = false -> (inSess p = inSess (pc s)) -> I1 (wPc p s).
Proof.
  intros [A B C D E F G H] C1 C2 Se. constructor; cbn; auto.
  - congruence.
  - intros t L. destruct (D t L) as [X|[_ X]]; [auto|congruence].
  - intros f T. destruct (E f T) as [d [[X Y]|X]]; [exists d; left; rewrite Se; auto|]. rewrite X in C1. discriminate.
  - intros d X. apply F. rewrite <- Se. exact X.
Qed.

Lemma I1_mask s m : I1 s -> I1 (wMask m s).
Proof. intros H. apply I1_same with s; auto. exact (i_st s H). Qed.
Lemma I1_ign s b : I1 s -> I1 (wIgn b s).
Proof. intros H. apply I1_same with s; auto. exact (i_st s H). Qed.
Lemma I1_fd s d o : I1 s -> I1 (wFd d o s).
Proof. intros H. apply I1_same with s; auto. exact (i_st s H). Qed.
Lemma I1_q s a b : I1 s -> I1 (wQ a b s).
Proof. intros H. apply I1_same with s; auto. exact (i_st s H). Qed.

Lemma logs_pc s t v l : pc (logs s t v l) = pc s.
Proof. unfold logs. destruct (level s <? v); reflexivity. Qed.

Lemma logs_em s v l : ems (logs s 0 v l) 0%nat = ems s 0%nat \/ ems (logs s 0 v l) 0%nat = Check l.
Proof. unfold logs. destruct (level s <? v); [auto|right; reflexivity]. Qed.

(** In a critical section of the server no thread is busy *)
Lemma crit_alone s t : I1 s -> crit (pc s) = true -> busy (ems s t) = false.
Proof.
  intros I Cr. destruct (busy (ems s t)) eqn:B; [|auto]. destruct (i_crit s I Cr) as [L Id]. pose proof (i_busy s I t B) as X.
  rewrite L in X. injection X as <-. rewrite Id in B. discriminate.
Qed.

Lemma busy_false_print e l : busy e = false -> e <> Print l.
Proof. intros H ->. discriminate. Qed.

Lemma serve_I1 s d ok s1 : st s = Runs -> I1 s -> serve s d ok = Some s1 -> I1 s1.
Proof.
  intros Ru I E. unfold serve in E. destruct (ems s 0%nat) eqn:Id; try discriminate.
  assert (Out : crit (pc s) = false -> lock s <> Some 0%nat).
  { intros X L. destruct (i_owner s I 0%nat L) as [Y|[_ Y]]; [rewrite Id in Y; discriminate|congruence]. }
  destruct (pc s) as [ | |cd|cd|cd|cd|cd|cd|cd|cd|cd|cd|cd|cd|cd|cd|cd|cd|cd|cd|cd| | | ] eqn:P.
  - injection E as <-. apply I1_pc; rewrite ?logs_pc, ?P; auto. apply logs_I1; auto. rewrite P. discriminate.
  - destruct ok.
    + destruct (tq s) as [|c q]; [discriminate|]. destruct (lowest s d); [|discriminate]. injection E as <-.
      apply I1_pc; cbn [wQ wFd pc]; rewrite ?P; auto. apply I1_q, I1_fd. auto.
    + injection E as <-. apply I1_pc; rewrite ?P; auto.
  - injection E as <-. apply I1_pc; rewrite ?logs_pc, ?P; auto. apply logs_I1; auto. rewrite P. discriminate.
  - destruct cd; injection E as <-; apply I1_pc; rewrite ?logs_pc, ?P; auto. apply logs_I1; auto. rewrite P. discriminate.
  - destruct (lock s) eqn:Lk; [discriminate|]. injection E as <-. destruct I as [A B C D E F G H]. constructor; cbn; auto.
    + intros t X. apply B in X. congruence.
    + intros t X. injection X as <-. right. auto.
    + intros f T. destruct (E f T) as [x [[X Y]|X]]; rewrite P in X; discriminate.
    + discriminate.
  - destruct ok.
    + injection E as <-. assert (Cr : crit (pc s) = true) by (rewrite P; reflexivity). pose proof (fun t => crit_alone s t I Cr) as Al.
      destruct (i_crit s I Cr) as [Lk _]. destruct I as [A B C D E F G H]. constructor; cbn; auto.
      * intros t X. right. split; congruence.
      * intros f T. injection T as <-. exists cd. left. rewrite upd_same. auto.
      * intros x X. injection X as <-. exists (nfile s). rewrite upd_same. auto.
      * intros f x. unfold upd. destruct (Nat.eqb_spec f (nfile s)) as [->|]; [lia|]. intros X. apply G in X. lia.
      * intros t l X. specialize (Al t). rewrite X in Al. discriminate.
    + injection E as <-. assert (Cr : crit (pc s) = true) by (rewrite P; reflexivity). pose proof (fun t => crit_alone s t I Cr) as Al.
      destruct (i_crit s I Cr) as [Lk _]. destruct I as [A B C D E F G H]. constructor; cbn; auto; try discriminate.
      * intros t X. right. split; congruence.
      * intros t l X. specialize (Al t). rewrite X in Al. discriminate.
  - injection E as <-. assert (Cr : crit (pc s) = true) by (rewrite P; reflexivity). pose proof (fun t => crit_alone s t I Cr) as Al.
    destruct I as [A B C D E F G H]. constructor; cbn; auto; try discriminate.
    + intros t X. specialize (Al t). congruence.
    + intros f T. destruct (E f T) as [x [[X Y]|X]]; rewrite P in X; discriminate.
  - injection E as <-. apply I1_pc; rewrite ?logs_pc, ?P; auto. apply logs_I1; auto. rewrite P. discriminate.
  - injection E as <-. apply I1_pc; cbn [wFd pc]; rewrite ?P; auto. apply I1_fd. auto.
  - destruct (i_sess s I cd) as [f [T Fi]]; [rewrite P; reflexivity|]. rewrite T, Fi in E. injection E as <-.
    destruct I as [A B C D E F G H]. constructor; cbn; auto.
    + rewrite P in C. auto.
    + rewrite P in D. auto.
    + rewrite P in E. intros f0 X. destruct (E f0 X) as [x [Y|Y]]; [eauto|discriminate].
    + rewrite P in F. auto.
  - injection E as <-. assert (Cr : crit (pc s) = true) by (rewrite P; reflexivity). pose proof (fun t => crit_alone s t I Cr) as Al.
    destruct I as [A B C D E F G H]. constructor; cbn; auto; try discriminate.
    + intros t X. specialize (Al t). congruence.
    + rewrite P in E. intros f0 X. destruct (E f0 X) as [x [Y|Y]]; [eauto|discriminate].
    + rewrite P in F. auto.
  - injection E as <-. apply I1_pc; rewrite ?logs_pc, ?P; auto. apply logs_I1; auto. rewrite P. discriminate.
  - injection E as <-. apply I1_pc; cbn [wEm pc]; rewrite ?P; auto. apply I1_em; auto.
    + rewrite Id. reflexivity.
    + rewrite P. discriminate.
    + discriminate.
  - injection E as <-. apply I1_pc; cbn [wIgn pc]; rewrite ?P; auto. apply I1_ign. auto.
  - assert (E2 : Some (wPc (S128 cd) s) = Some s1).
    { destruct (fds s cd) as [[c|n|]|]; auto. destruct (gone s c || sent s c); [auto|discriminate]. }
    injection E2 as <-. apply I1_pc; rewrite ?P; auto.
  - injection E as <-. apply I1_pc; cbn [wEm pc]; rewrite ?P; auto. apply I1_em; auto.
    + rewrite Id. reflexivity.
    + rewrite P. discriminate.
    + discriminate.
  - injection E as <-. apply I1_pc; cbn [wMask pc]; rewrite ?P; auto. apply I1_mask. auto.
  - destruct (lock s) eqn:Lk; [discriminate|]. injection E as <-. destruct I as [A B C D E F G H]. constructor; cbn; auto.
    + intros t X. apply B in X. congruence.
    + intros t X. injection X as <-. right. auto.
    + rewrite P in E. intros f0 X. destruct (E f0 X) as [x [Y|Y]]; [eauto|discriminate].
    + rewrite P in F. auto.
  - destruct (i_sess s I cd) as [f [T Fi]]; [rewrite P; reflexivity|]. rewrite T, Fi in E. injection E as <-.
    destruct I as [A B C D E F G H]. rewrite P in C, D. constructor; cbn; auto; try discriminate.
    + intros f0 X. exists cd. auto.
    + intros f0 x. unfold upd. destruct (Nat.eqb_spec f0 f) as [->|]; [discriminate|apply G].
  - injection E as <-. assert (Cr : crit (pc s) = true) by (rewrite P; reflexivity). pose proof (fun t => crit_alone s t I Cr) as Al.
    destruct I as [A B C D E F G H]. rewrite P in C, D. constructor; cbn; auto; try discriminate.
    intros t l X. specialize (Al t). rewrite X in Al. discriminate.
  - injection E as <-. assert (Cr : crit (pc s) = true) by (rewrite P; reflexivity). pose proof (fun t => crit_alone s t I Cr) as Al.
    destruct I as [A B C D E F G H]. rewrite P in C, D. constructor; cbn; auto; try discriminate.
    intros f0 X. destruct (E f0 X) as [x [[Y _]|Y]]; rewrite P in Y; discriminate.
  - injection E as <-. assert (Cr : crit (pc s) = true) by (rewrite P; reflexivity). pose proof (fun t => crit_alone s t I Cr) as Al.
    destruct I as [A B C D E F G H]. constructor; cbn; auto; try discriminate.
    + intros t X. specialize (Al t). congruence.
    + intros f0 X. destruct (E f0 X) as [x [[Y _]|Y]]; rewrite P in Y; discriminate.
  - injection E as <-. apply I1_pc; cbn [wIgn pc]; rewrite ?P; auto. apply I1_ign. auto.
  - injection E as <-. apply I1_pc; rewrite ?logs_pc, ?P; auto. apply logs_I1; auto. rewrite P. discriminate.
Qed.

Lemma step_runs s e s1 : step s e = Some s1 -> st s = Runs.
Proof. unfold step. destruct (st s); try discriminate. auto. Qed.

Lemma step_I1 s e s1 : I1 s -> step s e = Some s1 -> I1 s1.
Proof.
  intros I E. pose proof (step_runs s e s1 E) as Ru. unfold step in E. rewrite Ru in E. destruct e.
  - destruct t; [discriminate|]. destruct (ems s (S t)) eqn:Em; try discriminate. injection E as <-. apply traces_I1; auto.
  - destruct t; [discriminate|]. destruct (ems s (S t)) eqn:Em; try discriminate. injection E as <-. apply logs_I1; auto.
  - apply emit_I1 with s t; auto.
  - apply serve_I1 with s d ok; auto.
  - destruct (flow s); [|discriminate]. destruct (fq s); [discriminate|]. destruct (lowest s d); [|discriminate]. injection E as <-.
    apply I1_same with s; auto. exact (i_st s I).
  - destruct (flow s); [discriminate|]. apply write_same in E. destruct E as (St & L & T & Fi & N & Es & P & _).
    apply I1_same with s; auto. destruct St as [->| ->]; [rewrite Ru|]; discriminate.
  - destruct (flow s) as [|cd [x|]]; try discriminate. destruct (lowest s d); [|discriminate]. injection E as <-.
    apply I1_same with s; auto. exact (i_st s I).
  - destruct (flow s) as [|cd [x|]]; try discriminate. apply write_same in E. destruct E as (St & L & T & Fi & N & Es & P & _).
    apply I1_same with s; auto. destruct St as [->| ->]; [rewrite Ru|]; discriminate.
  - destruct (flow s) as [|cd [x|]]; try discriminate; injection E as <-; apply I1_same with s; auto; exact (i_st s I).
  - destruct (lowest s d); [|discriminate]. injection E as <-. apply I1_same with s; auto. exact (i_st s I).
  - destruct (existsb _ _); [|discriminate]. destruct (fds s d); injection E as <-; apply I1_same with s; auto; [exact (i_st s I)|discriminate].
  - injection E as <-. destruct trace; apply I1_same with s; auto; exact (i_st s I).
  - destruct (Nat.ltb _ _); [|discriminate]. injection E as <-. apply I1_same with s; auto; exact (i_st s I).
  - destruct (_ && _); [|discriminate]. injection E as <-. apply I1_same with s; auto; exact (i_st s I).
  - destruct (Nat.ltb _ _); [|discriminate]. injection E as <-. apply I1_same with s; auto; exact (i_st s I).
  - destruct (Nat.ltb _ _); [|discriminate]. injection E as <-. apply I1_same with s; auto; exact (i_st s I).
  - injection E as <-. apply I1_same with s; auto; exact (i_st s I).
  - injection E as <-. apply I1_same with s; auto; exact (i_st s I).
Qed.

Lemma run_I1 es : forall s s1, I1 s -> run s es = Some s1 -> I1 s1.
Proof.
  induction es as [|e r IH]; intros s s1 I R; cbn in R.
  - injection R as <-. auto.
  - destruct (step s e) as [s2|] eqn:E; [|discriminate]. apply IH with s2; auto. apply step_I1 with s e; auto.
Qed.

Lemma reached_I1 es s : reached es s -> I1 s.
Proof. intros (n & m & v & R). apply run_I1 with es (start n m v); auto. apply start_I1. Qed.

Lemma no_undef es s : reached es s -> st s <> Undef.
Proof. intros R. apply i_st, reached_I1 with es. exact R. Qed.

(** The holder of the lock lets it go after at most four of its steps. *)
Lemma holder es s t :
  reached es s -> lock s = Some t -> st s = Runs -> (forall c, full s c = false) ->
  exists own s1, (length own <= 4)%nat /\ Forall (ownStep t) own /\ run s own = Some s1 /\ (lock s1 = None \/ st s1 = Killed).
Proof.
  intros R L Ru NF. pose proof (reached_I1 es s R) as I.
  assert (LV : forall s0, st s0 = Runs -> lock s0 = Some t -> ems s0 t = Leave -> exists own s1, (length own <= 1)%nat /\ Forall (ownStep t) own /\ run s0 own = Some s1 /\ lock s1 = None).
  { intros s0 R0 L0 E0. exists [EEmit t]. eexists. split; [auto|]. split; [constructor; [left; auto|constructor]|].
    cbn. unfold step, emit. rewrite R0, E0. split; reflexivity. }
  assert (PR : forall s0 l, I1 s0 -> st s0 = Runs -> lock s0 = Some t -> (forall c, full s0 c = false) -> ems s0 t = Print l ->
    exists own s1, (length own <= 2)%nat /\ Forall (ownStep t) own /\ run s0 own = Some s1 /\ (lock s1 = None \/ st s1 = Killed)).
  { intros s0 l I0 R0 L0 F0 E0.
    assert (V : exists s2, vprint s0 l = Some s2).
    { unfold vprint, write. destruct (tf s0); eauto. destruct (files s0 f) as [d|]; [|eauto]. destruct (fds s0 d) as [[c|n|]|]; eauto.
      destruct (gone s0 c); [eauto|]. rewrite F0. eauto. }
    destruct V as [s2 V]. destruct (vprint_ok s0 t l s2 I0 E0 V) as ([St|St] & L2 & _ & _ & _ & Es & _).
    - destruct (LV (wEm t Leave s2)) as (own & s1 & A & B & C & D).
      + cbn. congruence.
      + cbn. congruence.
      + cbn. apply upd_same.
      + exists (EEmit t :: own), s1. split; [cbn; lia|]. split; [constructor; [left; auto|auto]|]. split; [|auto].
        cbn. unfold step, emit at 1. rewrite R0, E0, V. exact C.
    - exists [EEmit t], (wEm t Leave s2). split; [cbn; lia|]. split; [constructor; [left; auto|constructor]|].
      cbn. unfold step, emit. rewrite R0, E0, V. auto. }
  destruct (i_owner s I t L) as [B|[-> Cr]].
  - destruct (ems s t) as [|l|l|l|l|] eqn:Em; try discriminate.
    + assert (St : step s (EEmit t) = Some (wEm t (match tf s with TNull => Leave | _ => Print l end) s)) by (unfold step, emit; rewrite Ru, Em; reflexivity).
      pose proof (step_I1 _ _ _ I St) as I2. destruct (tf s) eqn:T.
      * destruct (LV (wEm t Leave s)) as (own & s1 & A & C & D & F); [auto|auto|cbn; apply upd_same|].
        exists (EEmit t :: own), s1. split; [cbn; lia|]. split; [constructor; [left; auto|auto]|]. split; [|auto]. cbn [run]. rewrite St. exact D.
      * destruct (PR (wEm t (Print l) s) l) as (own & s1 & A & C & D & F); auto; [cbn; apply upd_same|].
        exists (EEmit t :: own), s1. split; [cbn; lia|]. split; [constructor; [left; auto|auto]|]. split; [|auto]. cbn [run]. rewrite St. exact D.
      * destruct (PR (wEm t (Print l) s) l) as (own & s1 & A & C & D & F); auto; [cbn; apply upd_same|].
        exists (EEmit t :: own), s1. split; [cbn; lia|]. split; [constructor; [left; auto|auto]|]. split; [|auto]. cbn [run]. rewrite St. exact D.
    + destruct (PR s l) as (own & s1 & A & C & D & F); auto. exists own, s1. split; [lia|auto].
    + destruct (LV s) as (own & s1 & A & C & D & F); auto. exists own, s1. split; [lia|auto].
  - destruct (i_crit s I Cr) as [_ Id].
    assert (OS : forall b, ownStep 0 (EServe 0 b)) by (intros b; right; eauto).
    destruct (pc s) as [ | |cd|cd|cd|cd|cd|cd|cd|cd|cd|cd|cd|cd|cd|cd|cd|cd|cd|cd|cd| | | ] eqn:P; try discriminate.
    + exists [EServe 0 false; EServe 0 false]. eexists. split; [cbn; lia|]. split; [auto|].
      split; [|left].
      * cbn. unfold step, serve. rewrite Ru, Id, P. cbn. rewrite Ru, Id. reflexivity.
      * reflexivity.
    + exists [EServe 0 false]. eexists. split; [cbn; lia|]. split; [auto|]. split; [cbn; unfold step, serve; rewrite Ru, Id, P; reflexivity|left; reflexivity].
    + destruct (i_sess s I cd) as [f [T Fi]]; [rewrite P; reflexivity|].
      exists [EServe 0 false; EServe 0 false]. eexists. split; [cbn; lia|]. split; [auto|].
      split; [cbn; unfold step, serve; rewrite Ru, Id, P, T, Fi; cbn; rewrite Ru, Id; reflexivity|left; reflexivity].
    + exists [EServe 0 false]. eexists. split; [cbn; lia|]. split; [auto|]. split; [cbn; unfold step, serve; rewrite Ru, Id, P; reflexivity|left; reflexivity].
    + destruct (i_sess s I cd) as [f [T Fi]]; [rewrite P; reflexivity|].
      exists [EServe 0 false; EServe 0 false; EServe 0 false; EServe 0 false]. eexists. split; [cbn; lia|]. split; [auto 6|].
      split; [cbn; unfold step, serve; rewrite Ru, Id, P, T, Fi; cbn; rewrite Ru, Id; cbn; rewrite Ru, Id; cbn; rewrite Ru, Id; reflexivity|left; reflexivity].
    + exists [EServe 0 false; EServe 0 false; EServe 0 false]. eexists. split; [cbn; lia|]. split; [auto|].
      split; [cbn; unfold step, serve; rewrite Ru, Id, P; cbn; rewrite Ru, Id; cbn; rewrite Ru, Id; reflexivity|left; reflexivity].
    + exists [EServe 0 false; EServe 0 false]. eexists. split; [cbn; lia|]. split; [auto|].
      split; [cbn; unfold step, serve; rewrite Ru, Id, P; cbn; rewrite Ru, Id; reflexivity|left; reflexivity].
    + exists [EServe 0 false]. eexists. split; [cbn; lia|]. split; [auto|]. split; [cbn; unfold step, serve; rewrite Ru, Id, P; reflexivity|left; reflexivity].
Qed.
