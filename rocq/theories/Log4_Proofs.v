(** Where log and trace fail: a client that does not read, clients that are
    gone, the mask, and the stale descriptor *)
From Coq Require Import String.
From Verif Require Import Base Lists Cstr_Model Util_Proofs Log_Model Log_Spec Log_Proofs Log2_Proofs Log3_Proofs.
Set Default Goal Selector "!".

(** ** A client that does not read *)

Record stuck (s : state) (t : nat) (l : chars) (c : nat) : Prop := {
  k_print : ems s t = Print l;
  k_sess : session s c;
  k_gone : gone s c = false;
  k_full : full s c = true
}.

Lemma sess_pc s c : session s c -> crit (pc s) = false -> exists d, fds s d = Some (OConn c) /\
  (pc s = S116 d \/ pc s = S117 d \/ pc s = S120 d \/ pc s = S122 d \/ pc s = S128 d \/ pc s = S129 d \/ pc s = S131 d).
Proof.
  intros (d & F & P) C. exists d. split; [auto|]. decompose [or] P; auto 10; match goal with H : pc s = _ |- _ => rewrite H in C; discriminate end.
Qed.

(** The session goes on as long as the lock is held by another thread than
    the server in its critical sections. *)
Lemma session_step ks s e s1 c t : I1 s -> I2 ks s -> clean s e -> session s c -> lock s = Some t -> crit (pc s) = false -> e <> EEmit t ->
  step s e = Some s1 -> session s1 c.
Proof.
  intros J K Cl Se Lk NC NE E. destruct (sess_pc s c Se NC) as (d & Fd & P). pose proof (step_runs s e s1 E) as Ru.
  assert (Pd : pcd (pc s) = Some d) by (decompose [or] P; match goal with H : pc s = _ |- _ => rewrite H; reflexivity end).
  destruct (f_pc ks s K d Pd) as (c' & Fc & Kc). assert (c' = c) by congruence. subst c'.
  assert (SM : forall s2, fds s2 d = fds s d -> pc s2 = pc s -> session s2 c).
  { intros s2 A B. exists d. rewrite A, B. split; [auto|]. decompose [or] P; auto 10. }
  unfold step in E. rewrite Ru in E. destruct e; try (injection E as <-; apply SM; auto; fail).
  - destruct t0; [discriminate|]. destruct (ems s (S t0)); try discriminate. injection E as <-.
    pose proof (traces_same s (S t0) m l) as Y. cbv zeta in Y. decompose [and] Y. apply SM; congruence.
  - destruct t0; [discriminate|]. destruct (ems s (S t0)); try discriminate. injection E as <-.
    pose proof (logs_same s (S t0) v l) as Y. cbv zeta in Y. decompose [and] Y. apply SM; congruence.
  - pose proof (emit_same s t0 s1 J E) as Y. decompose [and] Y. apply SM; congruence.
  - unfold serve in E. destruct (ems s 0%nat); try discriminate.
    assert (LG : forall v l p, (p = S117 d) -> session (wPc p (logs s 0 v l)) c).
    { intros v l p ->. exists d. pose proof (logs_same s 0 v l) as Y. cbv zeta in Y. decompose [and] Y. cbn. split; [congruence|auto]. }
    destruct P as [P|[P|[P|[P|[P|[P|P]]]]]]; rewrite P in E.
    + injection E as <-. apply LG. auto.
    + injection E as <-. exists d. cbn. auto 10.
    + injection E as <-. exists d. cbn. auto 10.
    + rewrite Fd in E. destruct (gone s c || sent s c); [|discriminate]. injection E as <-. exists d. cbn. auto 10.
    + injection E as <-. exists d. cbn. auto 10.
    + injection E as <-. exists d. cbn. auto 11.
    + rewrite Lk in E. discriminate.
  - destruct (flow s); [|discriminate]. destruct (fq s) as [|x q]; [discriminate|]. destruct (lowest s d0) eqn:Lo; [|discriminate]. injection E as <-.
    apply lowest_free in Lo. apply SM; [|auto]. cbn. apply upd_other. congruence.
  - destruct (flow s); [discriminate|]. apply write_same in E. decompose [and] E. apply SM; congruence.
  - destruct (flow s) as [|cd [x|]]; try discriminate. destruct (lowest s d0) eqn:Lo; [|discriminate]. injection E as <-.
    apply lowest_free in Lo. apply SM; [|auto]. cbn. apply upd_other. congruence.
  - destruct (flow s) as [|cd [x|]]; try discriminate. apply write_same in E. decompose [and] E. apply SM; congruence.
  - destruct (flow s) as [|cd out] eqn:Fl; [discriminate|]. injection E as <-. destruct (f_flow ks s K cd out Fl) as (c1 & A & B & C).
    destruct out as [x|]; apply SM; auto; cbn.
    + destruct (C x eq_refl) as [C1 _]. rewrite !upd_other; auto; congruence.
    + apply upd_other. congruence.
  - destruct (lowest s d0) eqn:Lo; [|discriminate]. injection E as <-. apply lowest_free in Lo. apply SM; [|auto]. cbn. apply upd_other. congruence.
  - destruct (existsb _ _) eqn:Ex; [|discriminate]. apply held_in in Ex. apply (f_held ks s K) in Ex. rewrite Ex in E. injection E as <-.
    apply SM; [|auto]. cbn. apply upd_other. congruence.
  - injection E as <-. destruct trace; apply SM; auto.
  - destruct (Nat.ltb _ _); [|discriminate]. injection E as <-. apply SM; auto.
  - destruct (_ && _); [|discriminate]. injection E as <-. apply SM; auto.
  - destruct (Nat.ltb _ _); [|discriminate]. injection E as <-. apply SM; auto.
  - destruct (Nat.ltb _ _); [|discriminate]. injection E as <-. apply SM; auto.
Qed.

(** Only the client makes room or leaves. *)
Lemma step_full s e s1 c : I1 s -> step s e = Some s1 -> e <> EGone c -> e <> EDrain c -> gone s c = false -> full s c = true -> gone s1 c = false /\ full s1 c = true.
Proof.
  intros J E N1 N2 G F. pose proof (step_runs s e s1 E) as Ru. unfold step in E. rewrite Ru in E.
  assert (SM : forall s2, gone s2 = gone s -> full s2 = full s -> gone s2 c = false /\ full s2 c = true) by (intros s2 -> ->; auto).
  destruct e; try (injection E as <-; apply SM; auto; fail).
  - destruct t; [discriminate|]. destruct (ems s (S t)); try discriminate. injection E as <-.
    pose proof (traces_same s (S t) m l) as Y. cbv zeta in Y. decompose [and] Y. apply SM; auto.
  - destruct t; [discriminate|]. destruct (ems s (S t)); try discriminate. injection E as <-.
    pose proof (logs_same s (S t) v l) as Y. cbv zeta in Y. decompose [and] Y. apply SM; auto.
  - pose proof (emit_same s t s1 J E) as Y. decompose [and] Y. apply SM; auto.
  - pose proof (serve_text s d ok s1 E) as (A & B & C & D & _). apply SM; auto.
  - destruct (flow s); [|discriminate]. destruct (fq s); [discriminate|]. destruct (lowest s d); [|discriminate]. injection E as <-. apply SM; auto.
  - destruct (flow s); [discriminate|]. apply write_same in E. decompose [and] E. apply SM; auto.
  - destruct (flow s) as [|cd [x|]]; try discriminate. destruct (lowest s d); [|discriminate]. injection E as <-. apply SM; auto.
  - destruct (flow s) as [|cd [x|]]; try discriminate. apply write_same in E. decompose [and] E. apply SM; auto.
  - destruct (flow s) as [|cd out]; [discriminate|]. injection E as <-. destruct out; apply SM; auto.
  - destruct (lowest s d); [|discriminate]. injection E as <-. apply SM; auto.
  - destruct (existsb _ _); [|discriminate]. destruct (fds s d); injection E as <-; apply SM; auto.
  - injection E as <-. destruct trace; apply SM; auto.
  - destruct (Nat.ltb _ _); [|discriminate]. injection E as <-. cbn. rewrite upd_other; [auto|congruence].
  - destruct (_ && _); [|discriminate]. injection E as <-. apply SM; auto.
  - destruct (Nat.ltb _ _); [|discriminate]. injection E as <-. cbn. unfold upd. destruct (Nat.eqb c c0); auto.
  - destruct (Nat.ltb _ _); [|discriminate]. injection E as <-. cbn. rewrite upd_other; [auto|congruence].
Qed.

Lemma stuck_facts s t l c : I1 s -> stuck s t l c -> lock s = Some t /\ crit (pc s) = false /\ emit s t = None.
Proof.
  intros J [A B C D]. assert (Lk : lock s = Some t) by (apply (i_busy s J); rewrite A; reflexivity). split; [auto|].
  destruct (crit (pc s)) eqn:Cr.
  - destruct (i_crit s J Cr) as [L0 Id]. rewrite Lk in L0. injection L0 as ->. congruence.
  - split; [auto|]. destruct (session_file s c J B) as (f & d & T & Fi & Fd & _). unfold emit, vprint, write. rewrite A, T, Fi, Fd, C, D. auto.
Qed.

Lemma stuck_run t l c es : forall h s s1,
  I1 s -> I2 (connects h) s -> stuck s t l c ->
  along (fun s e => clean s e /\ e <> EGone c /\ e <> EDrain c) s es -> run s es = Some s1 ->
  stuck s1 t l c /\ forall t' l', ems s t' = Want l' -> ems s1 t' = Want l'.
Proof.
  induction es as [|e r IH]; intros h s s1 J K S A R; cbn in R, A.
  - injection R as <-. auto.
  - destruct A as [(Cl & N1 & N2) A]. destruct (step s e) as [s2|] eqn:E; [|discriminate].
    destruct (stuck_facts s t l c J S) as (Lk & NC & Bl).
    assert (NE : e <> EEmit t). { intros ->. pose proof (step_runs _ _ _ E) as Ru. unfold step in E. rewrite Ru, Bl in E. discriminate. }
    destruct S as [S1 S2 S3 S4]. destruct (step_full s e s2 c J E N1 N2 S3 S4) as [G2 F2].
    assert (WT : forall t' l', ems s t' = Want l' -> ems s2 t' = Want l').
    { intros t' l' W. rewrite (step_em s e s2 t' J E); [auto|rewrite W; discriminate|]. intros ->. pose proof (step_runs _ _ _ E) as Ru.
      unfold step, emit in E. rewrite Ru, W, Lk in E. discriminate. }
    destruct (IH (h ++ [e]) s2 s1) as [Q1 Q2]; auto.
    + apply step_I1 with s e; auto.
    + rewrite connects_app. apply step_I2 with s; auto.
    + constructor; auto.
      * rewrite (step_em s e s2 t J E); auto. rewrite S1. discriminate.
      * apply session_step with (connects h) s e t; auto.
Qed.

Lemma stalls es0 s t l c es s1 :
  reachedBy clean es0 s -> ems s t = Print l -> session s c -> gone s c = false -> full s c = true ->
  along (fun s e => clean s e /\ e <> EGone c /\ e <> EDrain c) s es -> run s es = Some s1 ->
  lock s1 = Some t /\ forall t' l', ems s t' = Want l' -> ems s1 t' = Want l'.
Proof.
  intros R A B C D Al Ru. destruct (reached_I2 es0 s R) as [J K].
  destruct (stuck_run t l c es es0 s s1 J K) as [S W]; auto; [constructor; auto|]. split; [|auto].
  destruct (stuck_facts s1 t l c) as (L & _); auto. apply run_I1 with es s; auto.
Qed.

(** ** A client that has left before it is accepted *)

Definition doomedPc (s : state) (c : nat) : Prop := exists d, fds s d = Some (OConn c) /\
  (pc s = S100 (Some d) \/ pc s = S101 (Some d) \/ pc s = S105 d \/ pc s = S106 d \/ pc s = S113 d \/ pc s = S114 d \/ pc s = S116 d \/ pc s = S117 d \/
   (pc s = S120 d /\ exists l, ems s 0%nat = Want l \/ ems s 0%nat = Have l \/ ems s 0%nat = Print l)).

Definition doomed (s : state) (c : nat) : Prop := st s = Killed \/ (st s = Runs /\ gone s c = true /\ ign s = false /\ doomedPc s c).

Lemma doomed_step ks s e s1 c : I1 s -> I2 ks s -> clean s e -> (forall d, e <> EServe d false) -> doomed s c -> step s e = Some s1 -> doomed s1 c.
Proof.
  intros J K Cl NF D E. pose proof (step_runs s e s1 E) as Ru. destruct D as [D|(_ & G & Ig & (d & Fd & P))]; [congruence|].
  assert (Pd : pcd (pc s) = Some d). { decompose [or] P; try (match goal with H : pc s = _ |- _ => rewrite H; reflexivity end). match goal with H : pc s = _ /\ _ |- _ => destruct H as [H _]; rewrite H; reflexivity end. }
  destruct (f_pc ks s K d Pd) as (c' & Fc & Kc). assert (c' = c) by congruence. subst c'.
  assert (SM : forall s2, (st s2 = Runs \/ st s2 = Killed) -> gone s2 c = gone s c -> ign s2 = ign s -> fds s2 d = fds s d -> pc s2 = pc s -> ems s2 0%nat = ems s 0%nat -> doomed s2 c).
  { intros s2 [A|A] B C D E0 F; [right|left; auto]. split; [auto|]. split; [congruence|]. split; [congruence|]. exists d. rewrite D, E0, F. auto. }
  assert (PC : forall s2 p, st s2 = Runs -> gone s2 = gone s -> ign s2 = ign s -> fds s2 = fds s -> pc s2 = p ->
     (p = S101 (Some d) \/ p = S105 d \/ p = S106 d \/ p = S113 d \/ p = S114 d \/ p = S116 d \/ p = S117 d) -> doomed s2 c).
  { intros s2 p A B C D E0 F. right. rewrite B, C. split; [auto|]. split; [auto|]. split; [auto|]. exists d. rewrite D, E0. split; [auto|]. tauto. }
  assert (Z0 : forall e0 : event, e = e0 -> (forall d ok, e0 <> EServe d ok) -> e0 <> EEmit 0%nat -> ems s 0%nat <> Idle -> ems s1 0%nat = ems s 0%nat).
  { intros e0 -> _ X Y. apply step_em with e0; auto. }
  unfold step in E. rewrite Ru in E. destruct e; try (injection E as <-; apply SM; auto; fail).
  - destruct t; [discriminate|]. destruct (ems s (S t)); try discriminate. injection E as <-. pose proof (traces_same s (S t) m l) as Y. cbv zeta in Y. decompose [and] Y.
    apply SM; try congruence; [left; congruence|]. unfold traces. destruct (Z.land (mask s) m =? 0); auto.
  - destruct t; [discriminate|]. destruct (ems s (S t)); try discriminate. injection E as <-. pose proof (logs_same s (S t) v l) as Y. cbv zeta in Y. decompose [and] Y.
    apply SM; try congruence; [left; congruence|]. unfold logs. destruct (level s <? v); auto.
  - pose proof (emit_same s t s1 J E) as Y. decompose [and] Y. destruct t as [|t].
    + (* the server *)
      assert (ST : st s1 = Runs \/ st s1 = Killed) by (destruct H; [left; congruence|auto]).
      destruct ST as [ST|ST]; [|left; auto]. right. split; [auto|]. split; [congruence|]. split; [congruence|]. exists d. replace (fds s1) with (fds s) by auto. replace (pc s1) with (pc s) by auto. split; [auto|].
      decompose [or] P; auto 10. match goal with H : pc s = _ /\ _ |- _ => destruct H as [P20 (l & El)] end. do 8 right. split; [auto|]. exists l.
      destruct (i_sess s J d) as (f & T & Fi); [rewrite P20; reflexivity|]. unfold emit in E.
      destruct El as [El|[El|El]]; rewrite El in E.
      * destruct (lock s); [discriminate|]. injection E as <-. cbn. auto.
      * rewrite T in E. injection E as <-. cbn. auto.
      * exfalso. unfold vprint, write in E. rewrite T, Fi, Fd, G, Ig in E. injection E as <-. cbn in ST. discriminate.
    + assert (EM : ems s1 0%nat = ems s 0%nat).
      { unfold emit in E. destruct (ems s (S t)) eqn:Em; try discriminate; try (injection E as <-; auto; fail).
        - destruct (lock s); [discriminate|]. injection E as <-. auto.
        - destruct (vprint s l) as [s2|] eqn:V; [|discriminate]. injection E as <-. pose proof (vprint_ok s (S t) l s2 J Em V) as X. decompose [and] X. cbn. congruence. }
      apply SM; congruence.
  - assert (OK : ok = true). { destruct ok; [auto|]. exfalso. apply (NF d0). auto. } subst ok. unfold serve in E. destruct (ems s 0%nat) eqn:Id; try discriminate.
    assert (LG : forall v l p, (p = S101 (Some d) \/ p = S117 d) -> doomed (wPc p (logs s 0 v l)) c).
    { intros v l p Q. pose proof (logs_same s 0 v l) as Y. cbv zeta in Y. decompose [and] Y. apply PC with p; cbn; auto; [congruence|]. tauto. }
    destruct P as [P|[P|[P|[P|[P|[P|[P|[P|[P (l & El)]]]]]]]]]; try rewrite P in E.
    + injection E as <-. apply LG. auto.
    + injection E as <-. apply PC with (S105 d); auto.
    + destruct (lock s); [discriminate|]. injection E as <-. apply PC with (S106 d); auto.
    + injection E as <-. apply PC with (S113 d); auto.
    + destruct (i_sess s J d) as (f & T & Fi); [rewrite P; reflexivity|]. rewrite T, Fi in E. injection E as <-. apply PC with (S114 d); auto 10.
    + injection E as <-. apply PC with (S116 d); auto 10.
    + injection E as <-. apply LG. auto.
    + injection E as <-. right. cbn. split; [auto|]. split; [auto|]. split; [auto|]. exists d. cbn. split; [auto|]. do 8 right. split; [auto|]. eexists. left. reflexivity.
    + destruct El as [El|[El|El]]; congruence.
  - destruct (flow s); [|discriminate]. destruct (fq s) as [|x q]; [discriminate|]. destruct (lowest s d0) eqn:Lo; [|discriminate]. injection E as <-.
    apply lowest_free in Lo. apply SM; auto. cbn. apply upd_other. congruence.
  - destruct (flow s); [discriminate|]. apply write_same in E. decompose [and] E. apply SM; congruence.
  - destruct (flow s) as [|cd [x|]]; try discriminate. destruct (lowest s d0) eqn:Lo; [|discriminate]. injection E as <-.
    apply lowest_free in Lo. apply SM; auto. cbn. apply upd_other. congruence.
  - destruct (flow s) as [|cd [x|]]; try discriminate. apply write_same in E. decompose [and] E. apply SM; congruence.
  - destruct (flow s) as [|cd out] eqn:Fl; [discriminate|]. injection E as <-. destruct (f_flow ks s K cd out Fl) as (c1 & A & B & C).
    destruct out as [x|]; apply SM; auto; cbn.
    + destruct (C x eq_refl) as [C1 _]. rewrite !upd_other; auto; congruence.
    + apply upd_other. congruence.
  - destruct (lowest s d0) eqn:Lo; [|discriminate]. injection E as <-. apply lowest_free in Lo. apply SM; auto. cbn. apply upd_other. congruence.
  - destruct (existsb _ _) eqn:Ex; [|discriminate]. apply held_in in Ex. apply (f_held ks s K) in Ex. rewrite Ex in E. injection E as <-.
    apply SM; auto. cbn. apply upd_other. congruence.
  - injection E as <-. destruct trace; apply SM; auto.
  - destruct (Nat.ltb _ _); [|discriminate]. injection E as <-. apply SM; auto. cbn. unfold upd. destruct (Nat.eqb c c0); auto.
  - destruct (_ && _); [|discriminate]. injection E as <-. apply SM; auto.
  - destruct (Nat.ltb _ _); [|discriminate]. injection E as <-. apply SM; auto.
  - destruct (Nat.ltb _ _); [|discriminate]. injection E as <-. apply SM; auto.
Qed.

Lemma doomed_run c es : forall h s s1, I1 s -> I2 (connects h) s -> along (fun s e => clean s e /\ forall d, e <> EServe d false) s es -> doomed s c -> run s es = Some s1 -> doomed s1 c.
Proof.
  induction es as [|e r IH]; intros h s s1 J K A D R; cbn in R, A.
  - injection R as <-. auto.
  - destruct A as [(Cl & NF) A]. destruct (step s e) as [s2|] eqn:E; [|discriminate]. apply (IH (h ++ [e]) s2); auto.
    + apply step_I1 with s e; auto.
    + rewrite connects_app. apply step_I2 with s; auto.
    + apply doomed_step with (connects h) s e; auto.
Qed.

(** SIGPIPE is ignored from 120 to 136 only *)
Definition ignPc (p : spc) : bool := match p with S122 _ | S128 _ | S129 _ | S131 _ | S132 _ | S133 _ | S134 _ | S135 | S136 => true | _ => false end.

Lemma step_ign s e s1 : I1 s -> ign s = ignPc (pc s) -> step s e = Some s1 -> ign s1 = ignPc (pc s1).
Proof.
  intros J H E. pose proof (step_runs s e s1 E) as Ru. unfold step in E. rewrite Ru in E.
  assert (SM : forall s2, ign s2 = ign s -> pc s2 = pc s -> ign s2 = ignPc (pc s2)) by (intros s2 -> ->; auto).
  destruct e; try (injection E as <-; apply SM; auto; fail).
  - destruct t; [discriminate|]. destruct (ems s (S t)); try discriminate. injection E as <-.
    pose proof (traces_same s (S t) m l) as Y. cbv zeta in Y. decompose [and] Y. apply SM; auto.
  - destruct t; [discriminate|]. destruct (ems s (S t)); try discriminate. injection E as <-.
    pose proof (logs_same s (S t) v l) as Y. cbv zeta in Y. decompose [and] Y. apply SM; auto.
  - pose proof (emit_same s t s1 J E) as Y. decompose [and] Y. apply SM; auto.
  - unfold serve in E. destruct (ems s 0%nat); try discriminate.
    assert (LG : forall v l p, ignPc p = ignPc (pc s) -> ign (wPc p (logs s 0 v l)) = ignPc (pc (wPc p (logs s 0 v l)))).
    { intros v l p Q. pose proof (logs_same s 0 v l) as Y. cbv zeta in Y. decompose [and] Y. cbn. congruence. }
    destruct (pc s) as [ | |cd|cd|cd|cd|cd|cd|cd|cd|cd|cd|cd|cd|cd|cd|cd|cd|cd|cd|cd| | | ] eqn:P; cbn in H; try (injection E as <-; first [apply LG; reflexivity | exact H | reflexivity]; fail).
    + destruct ok; [|injection E as <-; exact H]. destruct (tq s); [discriminate|]. destruct (lowest s d); [|discriminate]. injection E as <-. exact H.
    + destruct cd; injection E as <-; [exact H|apply LG; reflexivity].
    + destruct (lock s); [discriminate|]. injection E as <-. exact H.
    + destruct ok; injection E as <-; exact H.
    + injection E as <-. destruct (tf s); [| |destruct (files s f)]; exact H.
    + destruct (fds s cd) as [[c|n|]|]; try (injection E as <-; exact H). destruct (gone s c || sent s c); [|discriminate]. injection E as <-. exact H.
    + destruct (lock s); [discriminate|]. injection E as <-. exact H.
    + injection E as <-. destruct (tf s); [| |destruct (files s f)]; exact H.
  - destruct (flow s); [|discriminate]. destruct (fq s); [discriminate|]. destruct (lowest s d); [|discriminate]. injection E as <-. apply SM; auto.
  - destruct (flow s); [discriminate|]. apply write_same in E. decompose [and] E. apply SM; auto.
  - destruct (flow s) as [|cd [x|]]; try discriminate. destruct (lowest s d); [|discriminate]. injection E as <-. apply SM; auto.
  - destruct (flow s) as [|cd [x|]]; try discriminate. apply write_same in E. decompose [and] E. apply SM; auto.
  - destruct (flow s) as [|cd out]; [discriminate|]. injection E as <-. destruct out; apply SM; auto.
  - destruct (lowest s d); [|discriminate]. injection E as <-. apply SM; auto.
  - destruct (existsb _ _); [|discriminate]. destruct (fds s d); injection E as <-; apply SM; auto.
  - injection E as <-. destruct trace; apply SM; auto.
  - destruct (Nat.ltb _ _); [|discriminate]. injection E as <-. apply SM; auto.
  - destruct (_ && _); [|discriminate]. injection E as <-. apply SM; auto.
  - destruct (Nat.ltb _ _); [|discriminate]. injection E as <-. apply SM; auto.
  - destruct (Nat.ltb _ _); [|discriminate]. injection E as <-. apply SM; auto.
Qed.

Lemma reached_ign es s : reached es s -> ign s = ignPc (pc s).
Proof.
  intros (n & m & v & R). assert (G : forall es s s1, I1 s -> ign s = ignPc (pc s) -> run s es = Some s1 -> ign s1 = ignPc (pc s1)).
  { clear. induction es as [|e r IH]; intros s s1 J H R; cbn in R; [injection R as <-; auto|]. destruct (step s e) as [s2|] eqn:E; [|discriminate].
    apply (IH s2); auto; [apply step_I1 with s e; auto|apply step_ign with s e; auto]. }
  apply (G es (start n m v)); auto. apply start_I1.
Qed.

(** Once a client is accepted that has left, the server never gets to wait
    for its end: the process is killed before. *)
Lemma gone_client es0 s c q d es s1 :
  reachedBy clean es0 s -> pc s = S99 -> tq s = c :: q -> gone s c = true ->
  along (fun s e => clean s e /\ forall d, e <> EServe d false) s (EServe d true :: es) -> run s (EServe d true :: es) = Some s1 ->
  st s1 = Killed \/ listening (pc s1) = None.
Proof.
  intros R P Q G A Ru. destruct (reached_I2 es0 s R) as [J K]. pose proof (reached_ign es0 s (reachedBy_reached _ _ _ R)) as Ig. rewrite P in Ig.
  cbn [run along] in Ru, A. destruct A as [[Cl NF] A]. destruct (step s (EServe d true)) as [s2|] eqn:E; [|discriminate].
  assert (D : doomed s2 c).
  { pose proof (step_runs _ _ _ E) as St. unfold step, serve in E. rewrite St, P, Q in E. destruct (ems s 0%nat); try discriminate. destruct (lowest s d); [|discriminate].
    injection E as <-. right. cbn. split; [auto|]. split; [auto|]. split; [auto|]. exists d. cbn. rewrite upd_same. auto. }
  apply (doomed_run c es (es0 ++ [EServe d true]) s2 s1) in D; auto.
  - destruct D as [D|(_ & _ & _ & (x & _ & Y))]; [auto|right]. decompose [or] Y; try (match goal with H : pc s1 = _ |- _ => rewrite H; reflexivity end).
    match goal with H : pc s1 = _ /\ _ |- _ => destruct H as [H _]; rewrite H; reflexivity end.
  - apply step_I1 with s (EServe d true); auto.
  - rewrite connects_app. apply step_I2 with s; auto.
Qed.

(** ** A mask that is zero stays so *)

Definition want (e : estate) : option chars := match e with Want l | Have l | Print l => Some l | _ => None end.

Lemma mask_step h s e s1 c : I1 s -> I2 (connects h) s -> (forall m, e <> EMask m) -> step s e = Some s1 ->
  mask s = 0 -> (forall t l, want (ems s t) = Some l -> ownText l) -> isTrace h c ->
  mask s1 = 0 /\ (forall t l, want (ems s1 t) = Some l -> ownText l) /\ forall l, In l (got s1 c) -> In l (got s c) \/ ownText l.
Proof.
  intros J K NM E M W T. pose proof (step_runs s e s1 E) as Ru. unfold step in E. rewrite Ru in E.
  assert (SM : forall s2, mask s2 = mask s -> ems s2 = ems s -> got s2 = got s -> mask s2 = 0 /\ (forall t l, want (ems s2 t) = Some l -> ownText l) /\ forall l, In l (got s2 c) -> In l (got s c) \/ ownText l).
  { intros s2 A B C. rewrite A, B, C. auto. }
  destruct e; try (injection E as <-; apply SM; auto; fail).
  - destruct t; [discriminate|]. destruct (ems s (S t)); try discriminate. injection E as <-. unfold traces. rewrite M. cbn. auto.
  - destruct t; [discriminate|]. destruct (ems s (S t)); try discriminate. injection E as <-. unfold logs. destruct (level s <? v); [auto|]. cbn [wEm wErr mask ems got].
    split; [auto|]. split; [|auto]. intros t0 x. unfold upd. destruct (Nat.eqb t0 (S t)); [discriminate|apply W].
  - pose proof (emit_same s t s1 J E) as Y. decompose [and] Y. split; [congruence|]. split.
    + intros t0 x. unfold emit in E. destruct (ems s t) eqn:Em; try discriminate.
      * injection E as <-. cbn. unfold upd. destruct (Nat.eqb t0 t); [|apply W]. rewrite M. destruct (tf s); discriminate.
      * destruct (lock s); [discriminate|]. injection E as <-. cbn. unfold upd. destruct (Nat.eqb t0 t); [|apply W]. intros X. apply (W t). rewrite Em. exact X.
      * injection E as <-. cbn. unfold upd. destruct (Nat.eqb t0 t); [|apply W]. destruct (tf s); try discriminate; intros X; apply (W t); rewrite Em; exact X.
      * destruct (vprint s l) as [s2|] eqn:V; [|discriminate]. injection E as <-. pose proof (vprint_ok s t l s2 J Em V) as X. decompose [and] X.
        cbn. unfold upd. destruct (Nat.eqb t0 t); [discriminate|]. replace (ems s2) with (ems s) by auto. apply W.
      * injection E as <-. cbn. unfold upd. destruct (Nat.eqb t0 t); [discriminate|apply W].
    + intros x X. destruct (emit_got s t s1 J E) as [G|(d & c0 & y & A1 & A2 & A3 & A4 & A5)]; [rewrite G in X; auto|].
      rewrite A5 in X. unfold upd in X. destruct (Nat.eqb_spec c c0) as [->|]; [|auto]. apply in_app_or in X. destruct X as [X|[<-|[]]]; [auto|]. right. apply (W t). rewrite A1. reflexivity.
  - pose proof (serve_text s d ok s1 E) as (A & B & _ & _ & C & D). rewrite A.
    assert (MS : mask s1 = 0 /\ forall t, t <> 0%nat -> ems s1 t = ems s t).
    { clear A B C D. unfold serve in E. destruct (ems s 0%nat); try discriminate.
      assert (LG : forall v l p, mask (wPc p (logs s 0 v l)) = 0 /\ forall t, t <> 0%nat -> ems (wPc p (logs s 0 v l)) t = ems s t).
      { intros v l p. unfold logs. destruct (level s <? v); [auto|]. cbn. split; [auto|]. intros t N. apply upd_other; auto. }
      destruct (pc s) as [ | |cd|cd|cd|cd|cd|cd|cd|cd|cd|cd|cd|cd|cd|cd|cd|cd|cd|cd|cd| | | ] eqn:P; try (injection E as <-; first [apply LG | split; [first [exact M|reflexivity]|cbn; intros; auto; apply upd_other; auto]]; fail).
      + destruct ok; [|injection E as <-; auto]. destruct (tq s); [discriminate|]. destruct (lowest s d); [|discriminate]. injection E as <-. auto.
      + destruct cd; injection E as <-; [auto|apply LG].
      + destruct (lock s); [discriminate|]. injection E as <-. auto.
      + destruct ok; injection E as <-; auto.
      + injection E as <-. destruct (tf s); [| |destruct (files s f)]; auto.
      + destruct (fds s cd) as [[x|n|]|]; try (injection E as <-; auto; fail). destruct (gone s x || sent s x); [|discriminate]. injection E as <-. auto.
      + destruct (lock s); [discriminate|]. injection E as <-. auto.
      + injection E as <-. destruct (tf s); [| |destruct (files s f)]; auto. }
    destruct MS as [M1 M2]. split; [auto|]. split; [|auto]. intros t l X. destruct t as [|t]; [apply D; destruct (ems s1 0%nat); auto; discriminate|].
    rewrite M2 in X by discriminate. apply (W (S t)). auto.
  - destruct (flow s); [|discriminate]. destruct (fq s); [discriminate|]. destruct (lowest s d); [|discriminate]. injection E as <-. apply SM; auto.
  - destruct (flow s) as [|cd out] eqn:Fl; [discriminate|]. pose proof (write_same _ _ _ _ E) as X. decompose [and] X. split; [congruence|]. split; [replace (ems s1) with (ems s) by auto; auto|].
    intros x Y. destruct (write_got _ _ _ _ E) as [G|(c0 & A & B & C)]; [rewrite G in Y; auto|]. rewrite C in Y. unfold upd in Y. destruct (Nat.eqb_spec c c0) as [->|]; [|auto].
    destruct (f_flow _ _ K cd out Fl) as (c1 & B1 & B2 & _). unfold isTrace in T. congruence.
  - destruct (flow s) as [|cd [x|]]; try discriminate. destruct (lowest s d); [|discriminate]. injection E as <-. apply SM; auto.
  - destruct (flow s) as [|cd [d|]] eqn:Fl; try discriminate. pose proof (write_same _ _ _ _ E) as X. decompose [and] X. split; [congruence|]. split; [replace (ems s1) with (ems s) by auto; auto|].
    intros x Y. destruct (write_got _ _ _ _ E) as [G|(c0 & A & B & C)]; [rewrite G in Y; auto|]. rewrite C in Y. unfold upd in Y. destruct (Nat.eqb_spec c c0) as [->|]; [|auto].
    destruct (f_flow _ _ K cd _ Fl) as (c1 & B1 & B2 & B3). destruct (B3 d eq_refl) as [B4 _]. unfold isTrace in T. congruence.
  - destruct (flow s) as [|cd out]; [discriminate|]. injection E as <-. destruct out; apply SM; auto.
  - destruct (lowest s d); [|discriminate]. injection E as <-. apply SM; auto.
  - destruct (existsb _ _); [|discriminate]. destruct (fds s d); injection E as <-; apply SM; auto.
  - injection E as <-. destruct trace; apply SM; auto.
  - destruct (Nat.ltb _ _); [|discriminate]. injection E as <-. apply SM; auto.
  - destruct (_ && _); [|discriminate]. injection E as <-. apply SM; auto.
  - destruct (Nat.ltb _ _); [|discriminate]. injection E as <-. apply SM; auto.
  - destruct (Nat.ltb _ _); [|discriminate]. injection E as <-. apply SM; auto.
  - injection E as <-. exfalso. apply (NM m). auto.
Qed.

Lemma mask_run c es : forall h s s1, I1 s -> I2 (connects h) s -> along (fun s e => clean s e /\ forall m, e <> EMask m) s es -> run s es = Some s1 ->
  mask s = 0 -> (forall t l, want (ems s t) = Some l -> ownText l) -> isTrace h c -> mask s1 = 0 /\ forall l, In l (got s1 c) -> In l (got s c) \/ ownText l.
Proof.
  induction es as [|e r IH]; intros h s s1 J K A R M W T; cbn in R, A.
  - injection R as <-. auto.
  - destruct A as [(Cl & NM) A]. destruct (step s e) as [s2|] eqn:E; [|discriminate].
    destruct (mask_step h s e s2 c J K NM E M W T) as (M2 & W2 & G2). destruct (IH (h ++ [e]) s2 s1) as [Q1 Q2]; auto.
    + apply step_I1 with s e; auto.
    + rewrite connects_app. apply step_I2 with s; auto.
    + unfold isTrace in *. rewrite connects_app, nth_error_app1; [auto|]. apply nth_error_Some. congruence.
    + split; [auto|]. intros l X. destruct (Q2 l X); auto.
Qed.
