(** Descriptors do not leak, texts before the first session, and the end of a session *)
From Coq Require Import String.
From Verif Require Import Base Lists Cstr_Model Util_Proofs Log_Model Log_Spec Log_Proofs Log2_Proofs Log3_Proofs Log4_Proofs.
Set Default Goal Selector "!".

(** ** Descriptors *)

Record I5 (n : nat) (s : state) : Prop := {
  l_old : forall d, (d < n)%nat -> fds s d = Some OOther;
  l_new : forall d o, fds s d = Some o -> (d < n)%nat \/ pcd (pc s) = Some d \/ (exists cd out, flow s = FServe cd out /\ (d = cd \/ out = Some d)) \/ exists m, In (m, d) (held s)
}.

Lemma I5_same n s s2 : I5 n s -> fds s2 = fds s -> pcd (pc s2) = pcd (pc s) -> flow s2 = flow s -> held s2 = held s -> I5 n s2.
Proof. intros [A B] F P L H. constructor; rewrite F; [auto|]. rewrite P, L, H. auto. Qed.

Lemma step_I5 n ks s e s1 : I1 s -> I2 ks s -> I5 n s -> clean s e -> step s e = Some s1 -> I5 n s1.
Proof.
  intros J K L Cl E. pose proof (step_runs s e s1 E) as Ru. unfold step in E. rewrite Ru in E.
  assert (SM : forall s2, fds s2 = fds s -> pc s2 = pc s -> flow s2 = flow s -> held s2 = held s -> I5 n s2) by (intros; apply I5_same with s; auto; congruence).
  assert (Low : forall d, lowest s d = true -> (d < n)%nat -> False).
  { intros d Lo Lt. apply lowest_free in Lo. rewrite (l_old n s L d Lt) in Lo. discriminate. }
  destruct e; try (injection E as <-; apply SM; auto; fail).
  - destruct t; [discriminate|]. destruct (ems s (S t)); try discriminate. injection E as <-.
    pose proof (traces_same s (S t) m l) as Y. cbv zeta in Y. decompose [and] Y. apply SM; auto.
  - destruct t; [discriminate|]. destruct (ems s (S t)); try discriminate. injection E as <-.
    pose proof (logs_same s (S t) v l) as Y. cbv zeta in Y. decompose [and] Y. apply SM; auto.
  - pose proof (emit_same s t s1 J E) as Y. decompose [and] Y. apply SM; auto.
  - unfold serve in E. destruct (ems s 0%nat); try discriminate.
    assert (LG : forall v l p, pcd p = pcd (pc s) -> I5 n (wPc p (logs s 0 v l))).
    { intros v l p Q. pose proof (logs_same s 0 v l) as Y. cbv zeta in Y. decompose [and] Y. apply I5_same with s; auto. }
    assert (CLS : forall s2 cd c, pcd (pc s) = Some cd -> fds s cd = Some (OConn c) -> fds s2 = upd (fds s) cd None -> flow s2 = flow s -> held s2 = held s -> I5 n s2).
    { intros s2 cd c Pc Fc Fs Ff Fh. constructor; rewrite Fs.
      - intros d0 Lt. rewrite upd_other; [apply (l_old n s L); auto|]. intros ->. rewrite (l_old n s L cd Lt) in Fc. discriminate.
      - intros d0 o. unfold upd. destruct (Nat.eqb_spec d0 cd); [discriminate|]. intros X. rewrite Ff, Fh. destruct (l_new n s L d0 o X) as [Y|[Y|Y]]; auto. congruence. }
    destruct (pc s) as [ | |cd|cd|cd|cd|cd|cd|cd|cd|cd|cd|cd|cd|cd|cd|cd|cd|cd|cd|cd| | | ] eqn:P; try (injection E as <-; first [apply LG; reflexivity | apply I5_same with s; rewrite ?P; auto; fail]; fail).
    + destruct ok; [|injection E as <-; apply I5_same with s; rewrite ?P; auto]. destruct (tq s) as [|c q]; [discriminate|]. destruct (lowest s d) eqn:Lo; [|discriminate]. injection E as <-.
      constructor; cbn.
      * intros d0 Lt. rewrite upd_other; [apply (l_old n s L); auto|]. intros ->. eauto.
      * intros d0 o. unfold upd. destruct (Nat.eqb_spec d0 d) as [->|]; [auto|]. intros X. destruct (l_new n s L d0 o X) as [Y|[Y|Y]]; auto. rewrite P in Y. discriminate.
    + destruct cd; injection E as <-; [apply I5_same with s; rewrite ?P; auto|apply LG; reflexivity].
    + destruct (lock s); [discriminate|]. injection E as <-. apply I5_same with s; rewrite ?P; auto.
    + destruct ok; injection E as <-; apply I5_same with s; rewrite ?P; auto.
    + injection E as <-. destruct (f_pc ks s K cd) as (c & Fc & _); [rewrite P; reflexivity|]. eapply CLS; [reflexivity|exact Fc|reflexivity..].
    + injection E as <-. destruct (tf s); [| |destruct (files s f)]; apply I5_same with s; rewrite ?P; auto.
    + destruct (fds s cd) as [[x|m|]|]; try (injection E as <-; apply I5_same with s; rewrite ?P; auto; fail). destruct (gone s x || sent s x); [|discriminate]. injection E as <-. apply I5_same with s; rewrite ?P; auto.
    + destruct (lock s); [discriminate|]. injection E as <-. apply I5_same with s; rewrite ?P; auto.
    + injection E as <-. destruct (f_pc ks s K cd) as (c & Fc & _); [rewrite P; reflexivity|]. destruct (i_sess s J cd) as (f & T & Fi); [rewrite P; reflexivity|]. rewrite T, Fi.
      eapply CLS; [reflexivity|exact Fc|reflexivity..].
    + injection E as <-. assert (N : fds s cd = None) by (apply (f_stale ks s K); rewrite P; reflexivity). constructor; cbn.
      * intros d0 Lt. rewrite upd_other; [apply (l_old n s L); auto|]. intros ->. rewrite (l_old n s L cd Lt) in N. discriminate.
      * intros d0 o. unfold upd. destruct (Nat.eqb_spec d0 cd); [discriminate|]. intros X. destruct (l_new n s L d0 o X) as [Y|[Y|Y]]; auto. rewrite P in Y. discriminate.
  - destruct (flow s) eqn:Fl; [|discriminate]. destruct (fq s) as [|c q]; [discriminate|]. destruct (lowest s d) eqn:Lo; [|discriminate]. injection E as <-. constructor; cbn.
    + intros d0 Lt. rewrite upd_other; [apply (l_old n s L); auto|]. intros ->. eauto.
    + intros d0 o. unfold upd. destruct (Nat.eqb_spec d0 d) as [->|].
      * intros _. right; right; left. eauto.
      * intros X. destruct (l_new n s L d0 o X) as [Y|[Y|[(cd & out & Y & _)|Y]]]; auto. congruence.
  - destruct (flow s) eqn:Fl; [discriminate|]. apply write_same in E. decompose [and] E. apply SM; congruence.
  - destruct (flow s) as [|cd [x|]] eqn:Fl; try discriminate. destruct (lowest s d) eqn:Lo; [|discriminate]. injection E as <-. destruct (f_flow ks s K cd None Fl) as (c & Fc & _ & _). constructor; cbn.
    + intros d0 Lt. rewrite upd_other; [apply (l_old n s L); auto|]. intros ->. eauto.
    + rewrite Fc. intros d0 o. unfold upd. destruct (Nat.eqb_spec d0 d) as [->|].
      * intros _. right; right; left. eauto.
      * intros X. destruct (l_new n s L d0 o X) as [Y|[Y|[(cd0 & out & Y & Z)|Y]]]; auto. rewrite Fl in Y. injection Y as <- <-. destruct Z as [->|]; [|discriminate]. right; right; left. eauto.
  - destruct (flow s) as [|cd [x|]] eqn:Fl; try discriminate. apply write_same in E. decompose [and] E. apply SM; congruence.
  - destruct (flow s) as [|cd out] eqn:Fl; [discriminate|]. injection E as <-. destruct (f_flow ks s K cd out Fl) as (c & Fc & Kc & Oc).
    assert (FD : forall d0, fds (match out with Some d => wFd d None (wFd cd None s) | None => wFd cd None s end) d0 = if (Nat.eqb d0 cd || match out with Some d => Nat.eqb d0 d | None => false end)%bool then None else fds s d0).
    { intros d0. destruct out as [d|]; cbn; unfold upd.
      - destruct (Nat.eqb d0 d), (Nat.eqb d0 cd); reflexivity.
      - destruct (Nat.eqb d0 cd); reflexivity. }
    assert (SM2 : let s2 := match out with Some d => wFd d None (wFd cd None s) | None => wFd cd None s end in pc s2 = pc s /\ held s2 = held s) by (destruct out; split; reflexivity).
    cbv zeta in SM2. destruct SM2 as [S1 S2]. remember (match out with Some d => wFd d None (wFd cd None s) | None => wFd cd None s end) as s2. constructor; cbn; rewrite ?S1, ?S2.
    + intros d0 Lt. rewrite FD. pose proof (l_old n s L d0 Lt) as Z. destruct (Nat.eqb_spec d0 cd) as [->|]; [congruence|]. cbn [orb]. destruct out as [d|]; [|auto].
      destruct (Nat.eqb_spec d0 d) as [->|]; [|auto]. destruct (Oc d eq_refl). congruence.
    + intros d0 o. rewrite FD. destruct (Nat.eqb_spec d0 cd) as [->|]; [discriminate|]. cbn [orb]. intros X.
      assert (Y : fds s d0 = Some o /\ out <> Some d0). { destruct out as [d|]; [|split; [auto|discriminate]]. destruct (Nat.eqb_spec d0 d); [discriminate|]. split; [auto|congruence]. }
      destruct Y as [Y1 Y2]. destruct (l_new n s L d0 o Y1) as [Y|[Y|[(cd0 & o0 & Y & Z)|Y]]]; auto. rewrite Fl in Y. injection Y as <- <-. destruct Z; congruence.
  - destruct (lowest s d) eqn:Lo; [|discriminate]. injection E as <-. constructor; cbn.
    + intros d0 Lt. rewrite upd_other; [apply (l_old n s L); auto|]. intros ->. eauto.
    + intros d0 o. unfold upd. destruct (Nat.eqb_spec d0 d) as [->|].
      * intros _. right; right; right. eauto.
      * intros X. destruct (l_new n s L d0 o X) as [Y|[Y|[Y|(m & Y)]]]; auto. right; right; right. eauto.
  - destruct (existsb _ _) eqn:Ex; [|discriminate]. apply held_in in Ex. pose proof (f_held ks s K n0 d Ex) as Fd. rewrite Fd in E. injection E as <-. constructor; cbn.
    + intros d0 Lt. rewrite upd_other; [apply (l_old n s L); auto|]. intros ->. rewrite (l_old n s L d Lt) in Fd. discriminate.
    + intros d0 o. unfold upd. destruct (Nat.eqb_spec d0 d) as [->|N]; [discriminate|]. intros X. destruct (l_new n s L d0 o X) as [Y|[Y|[Y|(m & Y)]]]; auto.
      right; right; right. exists m. unfold dropHeld. apply filter_In. split; [auto|]. cbn. apply Nat.eqb_neq in N. rewrite N, Bool.andb_false_r. auto.
  - injection E as <-. destruct trace; apply SM; auto.
  - destruct (Nat.ltb _ _); [|discriminate]. injection E as <-. apply SM; auto.
  - destruct (_ && _); [|discriminate]. injection E as <-. apply SM; auto.
  - destruct (Nat.ltb _ _); [|discriminate]. injection E as <-. apply SM; auto.
  - destruct (Nat.ltb _ _); [|discriminate]. injection E as <-. apply SM; auto.
Qed.

Lemma run_I5 n es : forall h s s1, I1 s -> I2 (connects h) s -> I5 n s -> along clean s es -> run s es = Some s1 -> I5 n s1 /\ I2 (connects (h ++ es)) s1.
Proof.
  induction es as [|e r IH]; intros h s s1 J K L A R; cbn in A, R; [injection R as <-; rewrite app_nil_r; auto|].
  destruct A as [C A]. destruct (step s e) as [s2|] eqn:E; [|discriminate].
  replace (h ++ e :: r) with ((h ++ [e]) ++ r) by (rewrite <- app_assoc; reflexivity). apply IH with s2; auto.
  - apply step_I1 with s e; auto.
  - rewrite connects_app. apply step_I2 with s; auto.
  - apply step_I5 with (connects h) s e; auto.
Qed.

(** Between clients exactly the descriptors of the start and those of the
    load-balancers are open, and these are what they should be. *)
Lemma no_leak n m v es s : run (start n m v) es = Some s -> along clean (start n m v) es -> pc s = S99 -> flow s = FIdle ->
  forall d o, fds s d = Some o <-> ((d < n)%nat /\ o = OOther) \/ exists k, In (k, d) (held s) /\ o = OShm k.
Proof.
  intros R A P F d o. assert (L0 : I5 n (start n m v)).
  { constructor; cbn [start fds]; intros d0.
    - intros Lt. apply Nat.ltb_lt in Lt. rewrite Lt. auto.
    - intros o0. destruct (Nat.ltb_spec d0 n); [auto|discriminate]. }
  destruct (run_I5 n es [] (start n m v) s) as [L K]; auto; [apply start_I1|apply start_I2|]. split.
  - intros X. destruct (l_new n s L d o X) as [Y|[Y|[(cd & out & Y & _)|(k & Y)]]].
    + left. rewrite (l_old n s L d Y) in X. injection X as <-. auto.
    + rewrite P in Y. discriminate.
    + congruence.
    + right. exists k. rewrite (f_held _ _ K k d Y) in X. injection X as <-. auto.
  - intros [[X ->]|(k & X & ->)]; [apply (l_old n s L); auto|apply (f_held _ _ K); auto].
Qed.

(** ** Before the first trace client *)

Record fresh (s : state) : Prop := {
  r_tq : tq s = [];
  r_pc : pc s = S98 \/ pc s = S99 \/ pc s = S100 None \/ pc s = S101 None;
  r_tf : tf s = TErr
}.

Lemma fresh_step s e s1 : I1 s -> fresh s -> e <> EConnect true -> step s e = Some s1 -> fresh s1.
Proof.
  intros J [Q P T] N E. pose proof (step_runs s e s1 E) as Ru. unfold step in E. rewrite Ru in E.
  assert (SM : forall s2, tq s2 = tq s -> pc s2 = pc s -> tf s2 = tf s -> fresh s2) by (intros s2 A B C; constructor; rewrite ?A, ?B, ?C; auto).
  destruct e; try (injection E as <-; apply SM; auto; fail).
  - destruct t; [discriminate|]. destruct (ems s (S t)); try discriminate. injection E as <-.
    pose proof (traces_same s (S t) m l) as Y. cbv zeta in Y. decompose [and] Y. apply SM; auto.
  - destruct t; [discriminate|]. destruct (ems s (S t)); try discriminate. injection E as <-.
    pose proof (logs_same s (S t) v l) as Y. cbv zeta in Y. decompose [and] Y. apply SM; auto.
  - pose proof (emit_same s t s1 J E) as Y. decompose [and] Y. apply SM; auto.
  - unfold serve in E. destruct (ems s 0%nat); try discriminate.
    assert (LG : forall v l p, (p = S98 \/ p = S99 \/ p = S100 None \/ p = S101 None) -> fresh (wPc p (logs s 0 v l))).
    { intros v l p X. pose proof (logs_same s 0 v l) as Y. cbv zeta in Y. decompose [and] Y. constructor; cbn; auto; congruence. }
    destruct P as [P|[P|[P|P]]]; rewrite P in E; try (injection E as <-; apply LG; auto; fail).
    rewrite Q in E. destruct ok; [discriminate|]. injection E as <-. constructor; cbn; auto.
  - destruct (flow s); [|discriminate]. destruct (fq s); [discriminate|]. destruct (lowest s d); [|discriminate]. injection E as <-. apply SM; auto.
  - destruct (flow s); [discriminate|]. apply write_same in E. decompose [and] E. apply SM; congruence.
  - destruct (flow s) as [|cd [x|]]; try discriminate. destruct (lowest s d); [|discriminate]. injection E as <-. apply SM; auto.
  - destruct (flow s) as [|cd [x|]]; try discriminate. apply write_same in E. decompose [and] E. apply SM; congruence.
  - destruct (flow s) as [|cd out]; [discriminate|]. injection E as <-. destruct out; apply SM; auto.
  - destruct (lowest s d); [|discriminate]. injection E as <-. apply SM; auto.
  - destruct (existsb _ _); [|discriminate]. destruct (fds s d); injection E as <-; apply SM; auto.
  - destruct trace; [congruence|]. injection E as <-. apply SM; auto.
  - destruct (Nat.ltb _ _); [|discriminate]. injection E as <-. apply SM; auto.
  - destruct (_ && _); [|discriminate]. injection E as <-. apply SM; auto.
  - destruct (Nat.ltb _ _); [|discriminate]. injection E as <-. apply SM; auto.
  - destruct (Nat.ltb _ _); [|discriminate]. injection E as <-. apply SM; auto.
Qed.

Lemma fresh_run es : forall s s1, I1 s -> fresh s -> ~ In (EConnect true) es -> run s es = Some s1 -> fresh s1.
Proof.
  induction es as [|e r IH]; intros s s1 J F N R; cbn in R; [injection R as <-; auto|]. destruct (step s e) as [s2|] eqn:E; [|discriminate].
  apply (IH s2); auto; [apply step_I1 with s e; auto|apply fresh_step with s e; auto|]; intros X; apply N; [subst; left|right]; auto.
Qed.

Lemma fresh_text t l es : forall s s1, I1 s -> fresh s -> ~ In (EConnect true) es -> run s es = Some s1 ->
  ems s t = Want l \/ ems s t = Have l \/ ems s t = Print l -> ems s1 t = Idle -> exists a b, err s1 = err s ++ a ++ l :: b.
Proof.
  induction es as [|e r IH]; intros s s1 J F N R P Id; cbn in R.
  - injection R as <-. exfalso. rewrite Id in P. decompose [or] P; discriminate.
  - destruct (step s e) as [s2|] eqn:E; [|discriminate].
    assert (J2 : I1 s2) by (apply step_I1 with s e; auto). assert (N2 : ~ In (EConnect true) r) by (intros X; apply N; right; auto).
    assert (F2 : fresh s2) by (apply fresh_step with s e; auto; intros ->; apply N; left; auto).
    assert (GO : (ems s2 t = Want l \/ ems s2 t = Have l \/ ems s2 t = Print l) -> exists a b, err s1 = err s ++ a ++ l :: b).
    { intros P2. destruct (IH s2 s1 J2 F2 N2 R P2 Id) as (a & b & X). destruct (step_err s e s2 J E) as [c C]. exists (c ++ a), b. rewrite X, C, <- !app_assoc. auto. }
    assert (D : e = EEmit t \/ e <> EEmit t) by (destruct e; try (right; discriminate); destruct (Nat.eq_dec t0 t) as [->|]; [left; auto|right; congruence]).
    destruct D as [->|D].
    + pose proof (step_runs _ _ _ E) as Ru. unfold step, emit in E. rewrite Ru in E. destruct P as [P|[P|P]]; rewrite P in E.
      * destruct (lock s); [discriminate|]. injection E as <-. apply GO. cbn. rewrite upd_same. auto.
      * rewrite (r_tf s F) in E. injection E as <-. apply GO. cbn. rewrite upd_same. auto.
      * unfold vprint in E. rewrite (r_tf s F) in E. injection E as <-. destruct (run_err r _ s1 J2 R) as [b B]. exists [], b. rewrite B. cbn. rewrite <- app_assoc. auto.
    + apply GO. rewrite (step_em s e s2 t J E); [auto| |auto]. intros X. rewrite X in P. decompose [or] P; discriminate.
Qed.

Lemma trace_stderr es s t m l es2 s1 :
  reached es s -> ~ In (EConnect true) (es ++ es2) -> Z.land (mask s) m <> 0 -> run s (ETrace t m l :: es2) = Some s1 -> ems s1 t = Idle ->
  exists a b, err s1 = err s ++ a ++ l :: b.
Proof.
  intros (n & m0 & v & R) N M Ru Id. assert (F : fresh s).
  { apply (fresh_run es (start n m0 v) s); auto; [apply start_I1|constructor; cbn; auto|]. intros X. apply N, in_or_app. auto. }
  assert (J : I1 s) by (apply run_I1 with es (start n m0 v); [apply start_I1|auto]).
  cbn [run] in Ru. destruct (step s (ETrace t m l)) as [s2|] eqn:E; [|discriminate].
  assert (J2 : I1 s2) by (apply step_I1 with s (ETrace t m l); auto). assert (F2 : fresh s2) by (apply fresh_step with s (ETrace t m l); auto; discriminate).
  pose proof (step_runs _ _ _ E) as St. unfold step in E. rewrite St in E. destruct t; [discriminate|]. destruct (ems s (S t)) eqn:Em; try discriminate. injection E as E.
  unfold traces in E. apply Z.eqb_neq in M. rewrite M in E. subst s2.
  destruct (fresh_text (S t) l es2 _ s1 J2 F2) as (a & b & X); auto.
  - intros X. apply N, in_or_app. auto.
  - left. cbn [wEm ems]. apply upd_same.
  - exists a, b. exact X.
Qed.

(** ** The end of a session *)

Record inEnd (d c f : nat) (p : spc) (lk : option nat) (e0 : estate) (s : state) : Prop := {
  w_st : st s = Runs; w_pc : pc s = p; w_lock : lock s = lk; w_tf : tf s = TFile f; w_file : files s f = Some d;
  w_fd : fds s d = Some (OConn c); w_ign : ign s = true; w_full : full s c = false; w_em : ems s 0%nat = e0 }.

Lemma end_want d c f p l s : inEnd d c f p None (Want l) s -> exists s1, step s (EEmit 0) = Some s1 /\ inEnd d c f p (Some 0%nat) (Have l) s1.
Proof. intros [A B C D E F G H I]. unfold step, emit. rewrite A, I, C. eexists. split; [reflexivity|]. constructor; auto. Qed.
Lemma end_have d c f p l s : inEnd d c f p (Some 0%nat) (Have l) s -> exists s1, step s (EEmit 0) = Some s1 /\ inEnd d c f p (Some 0%nat) (Print l) s1.
Proof. intros [A B C D E F G H I]. unfold step, emit. rewrite A, I, D. eexists. split; [reflexivity|]. constructor; auto. Qed.
Lemma end_print d c f p l s : inEnd d c f p (Some 0%nat) (Print l) s -> exists s1, step s (EEmit 0) = Some s1 /\ inEnd d c f p (Some 0%nat) Leave s1.
Proof.
  intros [A B C D E F G H I]. unfold step, emit. rewrite A, I. unfold vprint, write. rewrite D, E, F, H, G.
  destruct (gone s c); (eexists; split; [reflexivity|]; constructor; auto).
Qed.
Lemma end_leave d c f p s : inEnd d c f p (Some 0%nat) Leave s -> exists s1, step s (EEmit 0) = Some s1 /\ inEnd d c f p None Idle s1.
Proof. intros [A B C D E F G H I]. unfold step, emit. rewrite A, I. eexists. split; [reflexivity|]. constructor; auto. Qed.

Lemma end_122 d c f s : inEnd d c f (S122 d) None Idle s -> gone s c = true \/ sent s c = true -> exists s1, step s (EServe 0 true) = Some s1 /\ inEnd d c f (S128 d) None Idle s1.
Proof.
  intros [A B C D E F G H I] GS. unfold step, serve. rewrite A, I, B, F.
  assert (X : gone s c || sent s c = true) by (destruct GS as [-> | ->]; [reflexivity|apply Bool.orb_true_r]). rewrite X. eexists. split; [reflexivity|]. constructor; auto.
Qed.
Lemma end_128 d c f s : inEnd d c f (S128 d) None Idle s -> exists l s1, step s (EServe 0 true) = Some s1 /\ inEnd d c f (S129 d) None (Want l) s1.
Proof. intros [A B C D E F G H I]. unfold step, serve. rewrite A, I, B. do 2 eexists. split; [reflexivity|]. constructor; auto; apply upd_same. Qed.
Lemma end_129 d c f s : inEnd d c f (S129 d) None Idle s -> exists s1, step s (EServe 0 true) = Some s1 /\ inEnd d c f (S131 d) None Idle s1.
Proof. intros [A B C D E F G H I]. unfold step, serve. rewrite A, I, B. eexists. split; [reflexivity|]. constructor; auto. Qed.
Lemma end_131 d c f s : inEnd d c f (S131 d) None Idle s -> exists s1, step s (EServe 0 true) = Some s1 /\ inEnd d c f (S132 d) (Some 0%nat) Idle s1.
Proof. intros [A B C D E F G H I]. unfold step, serve. rewrite A, I, B, C. eexists. split; [reflexivity|]. constructor; auto. Qed.

Lemma end_132 d c f s : inEnd d c f (S132 d) (Some 0%nat) Idle s -> exists s1, step s (EServe 0 true) = Some s1 /\ st s1 = Runs /\ pc s1 = S133 d /\ ems s1 0%nat = Idle /\ fds s1 d = None.
Proof.
  intros [A B C D E F G H I]. unfold step, serve. rewrite A, I, B, D, E. eexists. split; [reflexivity|]. cbn. rewrite upd_same. auto.
Qed.
Lemma end_133 d s : st s = Runs -> pc s = S133 d -> ems s 0%nat = Idle -> fds s d = None -> exists s1, run s (repeat (EServe 0 true) 5) = Some s1 /\ st s1 = Runs /\ pc s1 = S98 /\ fds s1 d = None /\ lock s1 = None.
Proof.
  intros A B C D. destruct s as [a1 a2 a3 a4 a5 a6 a7 a8 a9 a10 a11 a12 a13 a14 a15 a16 a17 a18 a19 a20 a21]. cbn in A, B, C, D. subst a1 a11.
  cbn [repeat run]. unfold step at 1, serve. cbn [st ems pc]. rewrite C. cbv iota. unfold step at 1, serve. cbn [st ems pc wPc wTf]. rewrite C. cbv iota.
  unfold step at 1, serve. cbn [st ems pc wPc wTf wFd]. rewrite C. cbv iota. unfold step at 1, serve. cbn [st ems pc wPc wTf wFd wLock]. rewrite C. cbv iota.
  unfold step at 1, serve. cbn [st ems pc wPc wTf wFd wLock wIgn]. rewrite C. cbv iota. eexists. split; [reflexivity|].
  match goal with |- context [logs ?x 0 4 ?y] => pose proof (logs_same x 0 4 y) as Y; unfold logs end. clear Y. cbn [level].
  match goal with |- context [if ?x then _ else _] => destruct x end; cbn; rewrite upd_same; auto.
Qed.

Lemma run_cons s e r s1 : step s e = Some s1 -> run s (e :: r) = run s1 r.
Proof. intros E. cbn [run]. rewrite E. reflexivity. Qed.

(** When the client has left or sent something the server ends the session
    by itself. *)
Lemma session_ends es s c d :
  reached es s -> st s = Runs -> pc s = S122 d -> fds s d = Some (OConn c) -> ems s 0%nat = Idle -> lock s = None -> (gone s c = true \/ sent s c = true) -> full s c = false ->
  exists own s1, (length own <= 14)%nat /\ Forall (ownStep 0) own /\ run s own = Some s1 /\ st s1 = Runs /\ pc s1 = S98 /\ fds s1 d = None /\ lock s1 = None.
Proof.
  intros R Ru P Fd Id Lk GS Fu. pose proof (reached_I1 es s R) as J. pose proof (reached_ign es s R) as Ig. rewrite P in Ig.
  destruct (i_sess s J d) as (f & T & Fi); [rewrite P; reflexivity|].
  destruct (end_122 d c f s) as (s1 & E1 & W1); [constructor; auto|auto|].
  destruct (end_128 d c f s1 W1) as (l & s2 & E2 & W2).
  destruct (end_want _ _ _ _ _ _ W2) as (s3 & E3 & W3). destruct (end_have _ _ _ _ _ _ W3) as (s4 & E4 & W4).
  destruct (end_print _ _ _ _ _ _ W4) as (s5 & E5 & W5). destruct (end_leave _ _ _ _ _ W5) as (s6 & E6 & W6).
  destruct (end_129 _ _ _ _ W6) as (s7 & E7 & W7). destruct (end_131 _ _ _ _ W7) as (s8 & E8 & W8). destruct (end_132 _ _ _ _ W8) as (s9 & E9 & A1 & A2 & A3 & A4).
  destruct (end_133 d s9 A1 A2 A3 A4) as (s10 & E10 & B1 & B2 & B3 & B4).
  exists (EServe 0 true :: EServe 0 true :: EEmit 0 :: EEmit 0 :: EEmit 0 :: EEmit 0 :: EServe 0 true :: EServe 0 true :: EServe 0 true :: repeat (EServe 0 true) 5), s10.
  split; [cbn; lia|]. split.
  - cbn. repeat (constructor; [first [left; reflexivity|right; split; [reflexivity|eauto]]|]). constructor.
  - rewrite (run_cons _ _ _ _ E1), (run_cons _ _ _ _ E2), (run_cons _ _ _ _ E3), (run_cons _ _ _ _ E4), (run_cons _ _ _ _ E5), (run_cons _ _ _ _ E6), (run_cons _ _ _ _ E7), (run_cons _ _ _ _ E8), (run_cons _ _ _ _ E9). auto.
Qed.
