(** Orderly histories leave the process alive; texts reach the client; a
    client that does not read stops those who trace; clients that are gone. *)
From Coq Require Import String.
From Verif Require Import Base Lists Cstr_Model Util_Proofs Log_Model Log_Spec Log_Proofs Log2_Proofs.
Set Default Goal Selector "!".

(** ** The process survives orderly clients *)

Record I4 (s : state) : Prop := {
  l_st : st s = Runs;
  l_open : forall d c, fds s d = Some (OConn c) -> gone s c = true -> listening (pc s) = Some d;
  l_q : forall c, In c (tq s ++ fq s) -> gone s c = false;
  l_new : forall c, gone s c = true -> (c < nconn s)%nat;
  l_ign : forall d, listening (pc s) = Some d -> ign s = true
}.

Lemma I4_same s1 s2 : I4 s1 -> st s2 = st s1 -> fds s2 = fds s1 -> gone s2 = gone s1 -> pc s2 = pc s1 -> tq s2 = tq s1 -> fq s2 = fq s1 -> nconn s2 = nconn s1 -> ign s2 = ign s1 -> I4 s2.
Proof. intros [A B C D E] H1 H2 H3 H4 H5 H6 H7 H8. constructor; rewrite ?H1, ?H2, ?H3, ?H4, ?H5, ?H6, ?H7, ?H8; auto. Qed.

Lemma I4_pc s p : I4 s -> (forall d, listening (pc s) = Some d -> listening p = Some d) -> (forall d, listening p = Some d -> ign s = true) -> I4 (wPc p s).
Proof. intros [A B C D E] X Y. constructor; cbn; auto. intros d c F G. apply X. eauto. Qed.

Lemma I4_open s d o : I4 s -> fds s d = None -> (forall c, o = OConn c -> gone s c = false) -> I4 (wFd d (Some o) s).
Proof.
  intros [A B C D E] N O. constructor; cbn; auto.
  intros d0 c. unfold upd. destruct (Nat.eqb_spec d0 d) as [->|]; [|eauto]. intros X Y. injection X as ->. specialize (O c eq_refl). congruence.
Qed.

Lemma I4_close s d : I4 s -> I4 (wFd d None s).
Proof.
  intros [A B C D E]. constructor; cbn; auto. intros d0 c. unfold upd. destruct (Nat.eqb_spec d0 d) as [->|]; [discriminate|eauto].
Qed.

Lemma write_alive s d l s1 : I4 s -> write s d l = Some s1 -> st s1 = st s.
Proof.
  intros I. unfold write. destruct (fds s d) as [[c|n|]|] eqn:F; try (intros H; injection H as <-; auto; fail).
  destruct (gone s c) eqn:G.
  - rewrite (l_ign s I d (l_open s I d c F G)). intros H. injection H as <-. auto.
  - destruct (full s c); [discriminate|]. intros H. injection H as <-. auto.
Qed.

Lemma write_I4 s d l s1 : I4 s -> write s d l = Some s1 -> I4 s1.
Proof.
  intros I W. pose proof (write_alive s d l s1 I W) as St. apply write_same in W. decompose [and] W. apply I4_same with s; auto.
Qed.

Lemma logs_I4 s t v l : I4 s -> I4 (logs s t v l).
Proof. intros I. pose proof (logs_same s t v l) as X. cbv zeta in X. decompose [and] X. apply I4_same with s; auto. Qed.

Lemma emit_I4 s t s1 : I1 s -> I4 s -> emit s t = Some s1 -> I4 s1.
Proof.
  intros J I E. pose proof (emit_same s t s1 J E) as X. decompose [and] X. apply I4_same with s; auto.
  unfold emit in E. destruct (ems s t) eqn:Em; try discriminate.
  - injection E as <-. auto.
  - destruct (lock s); [discriminate|]. injection E as <-. auto.
  - injection E as <-. auto.
  - destruct (vprint s l) as [s2|] eqn:V; [|discriminate]. injection E as <-. cbn. unfold vprint in V. destruct (tf s) eqn:T.
    + exfalso. apply (i_print s J t l Em T).
    + injection V as <-. auto.
    + destruct (files s f) eqn:Fi; [|injection V as <-; exfalso].
      * apply write_alive with n l; auto.
      * destruct (i_file s J f T) as [d [[_ Hf]|Hp]]; [congruence|].
        assert (Lk : lock s = Some t) by (apply (i_busy s J); rewrite Em; reflexivity).
        assert (Cr : crit (pc s) = true) by (rewrite Hp; reflexivity). destruct (i_crit s J Cr) as [L0 Id]. rewrite Lk in L0. injection L0 as ->. congruence.
  - injection E as <-. auto.
Qed.

Lemma serve_I4 s d ok s1 : I1 s -> I4 s -> serve s d ok = Some s1 -> I4 s1.
Proof.
  intros J I E. unfold serve in E. destruct (ems s 0%nat) eqn:Id; try discriminate.
  assert (LG : forall v l p, listening (pc s) = None -> listening p = None -> I4 (wPc p (logs s 0 v l))).
  { intros v l p X Y. apply I4_pc; [apply logs_I4; auto|rewrite logs_pc; congruence|congruence]. }
  destruct (pc s) as [ | |cd|cd|cd|cd|cd|cd|cd|cd|cd|cd|cd|cd|cd|cd|cd|cd|cd|cd|cd| | | ] eqn:P.
  - injection E as <-. apply LG; auto.
  - destruct ok.
    + destruct (tq s) as [|c q] eqn:Q; [discriminate|]. destruct (lowest s d) eqn:Lo; [|discriminate]. injection E as <-.
      apply I4_pc; cbn; rewrite ?P; try discriminate.
      assert (K : I4 (wFd d (Some (OConn c)) s)).
      { apply I4_open; auto; [apply lowest_free; auto|]. intros c0 X. injection X as <-. apply (l_q s I). rewrite Q. left. auto. }
      destruct K as [A B C D E]. constructor; cbn; auto. intros c0 X. apply (l_q s I). rewrite Q. right. auto.
    + injection E as <-. apply I4_pc; rewrite ?P; auto; discriminate.
  - injection E as <-. apply LG; auto.
  - destruct cd; injection E as <-; [|apply LG; auto]. apply I4_pc; rewrite ?P; auto; discriminate.
  - destruct (lock s); [discriminate|]. injection E as <-. apply I4_pc; cbn [wLock pc]; rewrite ?P; auto; try discriminate. apply I4_same with s; auto.
  - destruct ok; injection E as <-; apply I4_pc; cbn [newFile wTf pc]; rewrite ?P; auto; try discriminate; apply I4_same with s; auto.
  - injection E as <-. apply I4_pc; cbn [wLock pc]; rewrite ?P; auto; try discriminate. apply I4_same with s; auto.
  - injection E as <-. apply LG; auto.
  - injection E as <-. apply I4_pc; cbn [wFd pc]; rewrite ?P; auto; try discriminate. apply I4_close; auto.
  - destruct (i_sess s J cd) as [f [T Fi]]; [rewrite P; reflexivity|]. rewrite T, Fi in E. injection E as <-. apply I4_pc; rewrite ?P; auto; discriminate.
  - injection E as <-. apply I4_pc; cbn [wLock pc]; rewrite ?P; auto; try discriminate. apply I4_same with s; auto.
  - injection E as <-. apply LG; auto.
  - injection E as <-. apply I4_pc; cbn [wEm pc]; rewrite ?P; auto; try discriminate. apply I4_same with s; auto.
  - injection E as <-. destruct I as [A B C D E]. constructor; cbn; auto. intros d0 c F G. rewrite P in B. specialize (B d0 c F G). discriminate.
  - assert (E2 : Some (wPc (S128 cd) s) = Some s1).
    { destruct (fds s cd) as [[c|n|]|]; auto. destruct (gone s c || sent s c); [auto|discriminate]. }
    injection E2 as <-. apply I4_pc; rewrite ?P; auto. intros d0 _. apply (l_ign s I cd). rewrite P. auto.
  - injection E as <-. apply I4_pc; cbn [wEm pc]; rewrite ?P; auto; [apply I4_same with s; auto|]. intros d0 _. apply (l_ign s I cd). rewrite P. auto.
  - injection E as <-. apply I4_pc; cbn [wMask pc]; rewrite ?P; auto; [apply I4_same with s; auto|]. intros d0 _. apply (l_ign s I cd). rewrite P. auto.
  - destruct (lock s); [discriminate|]. injection E as <-. apply I4_pc; cbn [wLock pc]; rewrite ?P; auto; [apply I4_same with s; auto|].
    intros d0 _. apply (l_ign s I cd). rewrite P. auto.
  - destruct (i_sess s J cd) as [f [T Fi]]; [rewrite P; reflexivity|]. rewrite T, Fi in E. injection E as <-.
    destruct I as [A B C D E]. rewrite P in B. constructor; cbn; auto; try discriminate. intros d0 c. unfold upd. destruct (Nat.eqb_spec d0 cd) as [->|]; [discriminate|].
    intros F G. specialize (B d0 c F G). cbn in B. congruence.
  - injection E as <-. apply I4_pc; cbn [wTf pc]; rewrite ?P; auto; try discriminate. apply I4_same with s; auto.
  - injection E as <-. apply I4_pc; cbn [wFd pc]; rewrite ?P; auto; try discriminate. apply I4_close; auto.
  - injection E as <-. apply I4_pc; cbn [wLock pc]; rewrite ?P; auto; try discriminate. apply I4_same with s; auto.
  - injection E as <-. destruct I as [A B C D E]. rewrite P in B. constructor; cbn; auto; discriminate.
  - injection E as <-. apply LG; auto.
Qed.

Lemma listening_pcd p d : listening p = Some d -> pcd p = Some d.
Proof. destruct p; cbn; intros H; auto; discriminate. Qed.

Lemma step_I4 ks s e s1 : I1 s -> I2 ks s -> I4 s -> orderly s e -> step s e = Some s1 -> I4 s1.
Proof.
  intros J K I [Cl Po] E. pose proof (step_runs s e s1 E) as Ru. unfold step in E. rewrite Ru in E. destruct e.
  - destruct t; [discriminate|]. destruct (ems s (S t)) eqn:Em; try discriminate. injection E as <-.
    pose proof (traces_same s (S t) m l) as X. cbv zeta in X. decompose [and] X. apply I4_same with s; auto.
  - destruct t; [discriminate|]. destruct (ems s (S t)) eqn:Em; try discriminate. injection E as <-. apply logs_I4; auto.
  - apply emit_I4 with s t; auto.
  - apply serve_I4 with s d ok; auto.
  - destruct (flow s); [|discriminate]. destruct (fq s) as [|c q] eqn:Q; [discriminate|]. destruct (lowest s d) eqn:Lo; [|discriminate]. injection E as <-.
    assert (N : I4 (wFd d (Some (OConn c)) s)).
    { apply I4_open; auto; [apply lowest_free; auto|]. intros c0 X. injection X as <-. apply (l_q s I). rewrite Q. apply in_or_app. right. left. auto. }
    destruct N as [A B C D E]. constructor; cbn; auto. intros c0 X. apply (l_q s I). rewrite Q. apply in_app_or in X. apply in_or_app. destruct X; [auto|right; right; auto].
  - destruct (flow s); [discriminate|]. apply write_I4 with s cd l; auto.
  - destruct (flow s) as [|cd [x|]] eqn:Fl; try discriminate. destruct (lowest s d) eqn:Lo; [|discriminate]. injection E as <-.
    destruct (f_flow ks s K cd None Fl) as (c & Fc & Kc & _).
    assert (N : I4 (wFd d (fds s cd) s)).
    { rewrite Fc. apply I4_open; auto; [apply lowest_free; auto|]. intros c0 X. injection X as <-.
      destruct (gone s c) eqn:G; [|auto]. exfalso. pose proof (l_open s I cd c Fc G) as Li. apply listening_pcd in Li. destruct (f_pc ks s K cd Li) as (c1 & X & Y). congruence. }
    apply I4_same with (wFd d (fds s cd) s); auto.
  - destruct (flow s) as [|cd [x|]]; try discriminate. apply write_I4 with s x l; auto.
  - destruct (flow s) as [|cd out]; [discriminate|]. injection E as <-. destruct out as [d|].
    + apply I4_same with (wFd d None (wFd cd None s)); auto. apply I4_close, I4_close; auto.
    + apply I4_same with (wFd cd None s); auto. apply I4_close; auto.
  - destruct (lowest s d) eqn:Lo; [|discriminate]. injection E as <-. apply I4_same with (wFd d (Some (OShm n)) s); auto.
    apply I4_open; auto; [apply lowest_free; auto|discriminate].
  - destruct (existsb _ _) eqn:Ex; [|discriminate]. apply held_in in Ex. rewrite (f_held ks s K n d Ex) in E. injection E as <-.
    apply I4_same with (wFd d None s); auto. apply I4_close; auto.
  - injection E as <-. destruct I as [A B C D E].
    assert (NG : gone s (nconn s) = false) by (destruct (gone s (nconn s)) eqn:G; [apply D in G; lia|auto]).
    assert (Qs : forall c, In c ((tq s ++ fq s) ++ [nconn s]) -> gone s c = false) by (intros c X; apply in_app_or in X; destruct X as [X|[<-|[]]]; auto).
    destruct trace; constructor; cbn; auto; intros c X; try (apply D in X; lia); apply Qs; rewrite !in_app_iff in *; tauto.
  - destruct (Nat.ltb _ _) eqn:Lt; [|discriminate]. injection E as <-. apply Nat.ltb_lt in Lt. destruct (Po c eq_refl) as [NQ Op]. destruct I as [A B C D E].
    constructor; cbn; auto.
    + intros d0 c0 F. unfold upd. destruct (Nat.eqb_spec c0 c) as [->|]; [auto|eauto].
    + intros c0 X. unfold upd. destruct (Nat.eqb_spec c0 c) as [->|]; [contradiction|auto].
    + intros c0. unfold upd. destruct (Nat.eqb_spec c0 c) as [->|]; auto.
  - destruct (_ && _); [|discriminate]. injection E as <-. apply I4_same with s; auto.
  - destruct (Nat.ltb _ _); [|discriminate]. injection E as <-. apply I4_same with s; auto.
  - destruct (Nat.ltb _ _); [|discriminate]. injection E as <-. apply I4_same with s; auto.
  - injection E as <-. apply I4_same with s; auto.
  - injection E as <-. apply I4_same with s; auto.
Qed.

Lemma start_I4 n m v : I4 (start n m v).
Proof. constructor; cbn; auto; try contradiction; discriminate. Qed.

Lemma survives es s : reachedBy orderly es s -> st s = Runs.
Proof.
  intros R. assert (H : I1 s /\ I2 (connects es) s /\ I4 s); [|destruct H as (_ & _ & [])]; auto. revert es s R. apply reached_ind.
  - intros. split; [apply start_I1|]. split; [apply start_I2|apply start_I4].
  - intros es s e s1 (A & B & X) C E. split; [apply step_I1 with s e; auto|]. split; [|apply step_I4 with (connects es) s e; auto].
    rewrite connects_app. destruct C. apply step_I2 with s; auto.
Qed.

(** ** Texts arrive *)

Lemma write_more s d l s1 c : write s d l = Some s1 -> exists a, got s1 c = got s c ++ a.
Proof.
  intros W. destruct (write_got _ _ _ _ W) as [->|(c0 & _ & _ & ->)]; [exists []; rewrite app_nil_r; auto|].
  unfold upd. destruct (Nat.eqb_spec c c0) as [->|]; [eauto|exists []; rewrite app_nil_r; auto].
Qed.

(** What a client has got stays; a client that is gone stays so. *)
Lemma step_more s e s1 c : I1 s -> step s e = Some s1 -> (exists a, got s1 c = got s c ++ a) /\ (gone s c = true -> gone s1 c = true).
Proof.
  intros J E. pose proof (step_runs s e s1 E) as Ru. unfold step in E. rewrite Ru in E.
  assert (SM : forall s2, got s2 = got s -> gone s2 = gone s -> (exists a, got s2 c = got s c ++ a) /\ (gone s c = true -> gone s2 c = true)).
  { intros s2 A B. rewrite A, B. split; [exists []; rewrite app_nil_r; auto|auto]. }
  destruct e; try (injection E as <-; apply SM; auto; fail).
  - destruct t; [discriminate|]. destruct (ems s (S t)) eqn:Em; try discriminate. injection E as <-.
    pose proof (traces_same s (S t) m l) as Y. cbv zeta in Y. decompose [and] Y. apply SM; auto.
  - destruct t; [discriminate|]. destruct (ems s (S t)) eqn:Em; try discriminate. injection E as <-.
    pose proof (logs_same s (S t) v l) as Y. cbv zeta in Y. decompose [and] Y. apply SM; auto.
  - pose proof (emit_same s t s1 J E) as Y. decompose [and] Y. split; [|congruence].
    destruct (emit_got s t s1 J E) as [->|(d & c0 & x & _ & _ & _ & _ & ->)]; [exists []; rewrite app_nil_r; auto|].
    unfold upd. destruct (Nat.eqb_spec c c0) as [->|]; [eauto|exists []; rewrite app_nil_r; auto].
  - pose proof (serve_text s d ok s1 E) as (A & B & C & _). apply SM; auto.
  - destruct (flow s); [|discriminate]. destruct (fq s); [discriminate|]. destruct (lowest s d); [|discriminate]. injection E as <-. apply SM; auto.
  - destruct (flow s) as [|cd out] eqn:Fl; [discriminate|]. pose proof (write_same _ _ _ _ E) as W. decompose [and] W.
    split; [apply write_more with cd l; auto|congruence].
  - destruct (flow s) as [|cd [x|]]; try discriminate. destruct (lowest s d); [|discriminate]. injection E as <-. apply SM; auto.
  - destruct (flow s) as [|cd [d|]] eqn:Fl; try discriminate. pose proof (write_same _ _ _ _ E) as W. decompose [and] W.
    split; [apply write_more with d l; auto|congruence].
  - destruct (flow s) as [|cd out]; [discriminate|]. injection E as <-. destruct out; apply SM; auto.
  - destruct (lowest s d); [|discriminate]. injection E as <-. apply SM; auto.
  - destruct (existsb _ _); [|discriminate]. destruct (fds s d); injection E as <-; apply SM; auto.
  - injection E as <-. destruct trace; apply SM; auto.
  - destruct (Nat.ltb _ _); [|discriminate]. injection E as <-. cbn. split; [exists []; rewrite app_nil_r; auto|].
    unfold upd. destruct (Nat.eqb_spec c c0); auto.
  - destruct (_ && _); [|discriminate]. injection E as <-. apply SM; auto.
  - destruct (Nat.ltb _ _); [|discriminate]. injection E as <-. apply SM; auto.
  - destruct (Nat.ltb _ _); [|discriminate]. injection E as <-. apply SM; auto.
Qed.

Lemma run_more es : forall s s1 c, I1 s -> run s es = Some s1 -> (exists a, got s1 c = got s c ++ a) /\ (gone s c = true -> gone s1 c = true).
Proof.
  induction es as [|e r IH]; intros s s1 c I R; cbn in R.
  - injection R as <-. split; [exists []; rewrite app_nil_r; auto|auto].
  - destruct (step s e) as [s2|] eqn:E; [|discriminate]. destruct (step_more s e s2 c I E) as [[a A] G].
    destruct (IH s2 s1 c (step_I1 _ _ _ I E) R) as [[b B] H]. split; [exists (a ++ b); rewrite B, A, app_assoc; auto|auto].
Qed.

Lemma session_file s c : I1 s -> session s c -> exists f d, tf s = TFile f /\ files s f = Some d /\ fds s d = Some (OConn c) /\ inSess (pc s) = Some d.
Proof.
  intros I (d & F & P). assert (Se : inSess (pc s) = Some d) by (decompose [or] P; match goal with H : pc s = _ |- _ => rewrite H; reflexivity end).
  destruct (i_sess s I d Se) as (f & T & Fi). exists f, d. auto.
Qed.

(** Another event leaves a thread where it is *)
Lemma step_em s e s1 t : I1 s -> step s e = Some s1 -> ems s t <> Idle -> e <> EEmit t -> ems s1 t = ems s t.
Proof.
  intros J E NI NE. pose proof (step_runs s e s1 E) as Ru. unfold step in E. rewrite Ru in E. destruct e; try (injection E as <-; auto; fail).
  - destruct t0; [discriminate|]. destruct (ems s (S t0)) eqn:Em; try discriminate. injection E as <-. unfold traces.
    destruct (Z.land (mask s) m =? 0); [auto|]. cbn [wEm ems]. rewrite upd_other; [auto|congruence].
  - destruct t0; [discriminate|]. destruct (ems s (S t0)) eqn:Em; try discriminate. injection E as <-. unfold logs.
    destruct (level s <? v); [auto|]. cbn [wEm ems]. rewrite upd_other; [auto|congruence].
  - unfold emit in E. assert (N : t <> t0) by congruence. destruct (ems s t0) eqn:Em; try discriminate.
    + injection E as <-. cbn. rewrite upd_other; auto.
    + destruct (lock s); [discriminate|]. injection E as <-. cbn. rewrite upd_other; auto.
    + injection E as <-. cbn. rewrite upd_other; auto.
    + destruct (vprint s l) as [s2|] eqn:V; [|discriminate]. injection E as <-. pose proof (vprint_ok s t0 l s2 J Em V) as X. decompose [and] X. cbn. rewrite upd_other; [congruence|auto].
    + injection E as <-. cbn. rewrite upd_other; auto.
  - assert (T0 : t <> 0%nat). { intros ->. unfold serve in E. destruct (ems s 0%nat); try discriminate. congruence. }
    unfold serve in E. destruct (ems s 0%nat); try discriminate.
    assert (LG : forall v l, ems (logs s 0 v l) t = ems s t) by (intros v l; unfold logs; destruct (level s <? v); [auto|cbn; rewrite upd_other; auto]).
    destruct (pc s) as [ | |cd|cd|cd|cd|cd|cd|cd|cd|cd|cd|cd|cd|cd|cd|cd|cd|cd|cd|cd| | | ]; try (injection E as <-; cbn [wPc ems]; auto; fail).
    + destruct ok; [|injection E as <-; auto]. destruct (tq s); [discriminate|]. destruct (lowest s d); [|discriminate]. injection E as <-. auto.
    + destruct cd; injection E as <-; cbn [wPc ems]; auto.
    + destruct (lock s); [discriminate|]. injection E as <-. auto.
    + destruct ok; injection E as <-; auto.
    + injection E as <-. destruct (tf s); [| |destruct (files s f)]; auto.
    + injection E as <-. cbn. rewrite upd_other; auto.
    + destruct (fds s cd) as [[c|n|]|]; try (injection E as <-; auto; fail). destruct (gone s c || sent s c); [|discriminate]. injection E as <-. auto.
    + injection E as <-. cbn. rewrite upd_other; auto.
    + destruct (lock s); [discriminate|]. injection E as <-. auto.
    + injection E as <-. destruct (tf s); [| |destruct (files s f)]; auto.
  - destruct (flow s); [|discriminate]. destruct (fq s); [discriminate|]. destruct (lowest s d); [|discriminate]. injection E as <-. auto.
  - destruct (flow s); [discriminate|]. apply write_same in E. decompose [and] E. congruence.
  - destruct (flow s) as [|cd [x|]]; try discriminate. destruct (lowest s d); [|discriminate]. injection E as <-. auto.
  - destruct (flow s) as [|cd [x|]]; try discriminate. apply write_same in E. decompose [and] E. congruence.
  - destruct (flow s) as [|cd out]; [discriminate|]. injection E as <-. destruct out; auto.
  - destruct (lowest s d); [|discriminate]. injection E as <-. auto.
  - destruct (existsb _ _); [|discriminate]. destruct (fds s d); injection E as <-; auto.
  - injection E as <-. destruct trace; auto.
  - destruct (Nat.ltb _ _); [|discriminate]. injection E as <-. auto.
  - destruct (_ && _); [|discriminate]. injection E as <-. auto.
  - destruct (Nat.ltb _ _); [|discriminate]. injection E as <-. auto.
  - destruct (Nat.ltb _ _); [|discriminate]. injection E as <-. auto.
Qed.

Definition pending (chk : bool) (e : estate) (l : chars) : Prop := e = Want l \/ e = Have l \/ e = Print l \/ (chk = true /\ e = Check l).

Lemma arrives chk c t l es : forall s s1,
  I1 s -> pending chk (ems s t) l ->
  along (fun s _ => session s c /\ (chk = true -> Z.land (mask s) 1 <> 0)) s es -> run s es = Some s1 -> gone s1 c = false -> ems s1 t = Idle ->
  exists a b, got s1 c = got s c ++ a ++ l :: b.
Proof.
  induction es as [|e r IH]; intros s s1 I Pe A R G Id; cbn in R, A.
  - injection R as <-. rewrite Id in Pe. destruct Pe as [X|[X|[X|[_ X]]]]; discriminate.
  - destruct A as [[Se Ma] A]. destruct (step s e) as [s2|] eqn:E; [|discriminate]. pose proof (step_I1 _ _ _ I E) as I'.
    destruct (step_more s e s2 c I E) as [[a0 A0] G0].
    assert (CONT : pending chk (ems s2 t) l -> exists a b, got s1 c = got s c ++ a ++ l :: b).
    { intros P2. destruct (IH s2 s1 I' P2 A R G Id) as (a & b & X). exists (a0 ++ a), b. rewrite X, A0, <- !app_assoc. auto. }
    assert (NI : ems s t <> Idle) by (destruct Pe as [X|[X|[X|[_ X]]]]; rewrite X; discriminate).
    assert (DE : {e = EEmit t} + {e <> EEmit t}).
    { destruct e; try (right; discriminate). destruct (Nat.eq_dec t0 t); [left|right]; congruence. }
    destruct DE as [->|NE]; [|apply CONT; rewrite (step_em s e s2 t I E NI NE); auto].
    pose proof (step_runs _ _ _ E) as Ru. destruct (session_file s c I Se) as (f & d & T & Fi & Fd & _). unfold step, emit in E. rewrite Ru in E.
    destruct Pe as [X|[X|[X|[K X]]]]; rewrite X in E.
    + destruct (lock s); [discriminate|]. injection E as <-. apply CONT. right; left. cbn. apply upd_same.
    + rewrite T in E. injection E as <-. apply CONT. right; right; left. cbn. apply upd_same.
    + assert (G1 : gone s c = false). { destruct (gone s c) eqn:Q; [|auto]. destruct (run_more r s2 s1 c I' R) as [_ Z]. rewrite (Z (G0 eq_refl)) in G. discriminate. }
      unfold vprint, write in E. rewrite T, Fi, Fd, G1 in E. destruct (full s c); [discriminate|]. injection E as <-.
      destruct (run_more r _ s1 c I' R) as [[b B] _]. exists [], b. cbn in B. rewrite upd_same in B. rewrite B, <- app_assoc. auto.
    + rewrite T in E. specialize (Ma K). apply Z.eqb_neq in Ma. rewrite Ma in E. injection E as <-. apply CONT. left. cbn. apply upd_same.
Qed.

(** A text traced while the session lasts is got by the client. *)
Lemma trace_arrives es s t m l c es2 s1 :
  reached es s -> Z.land (mask s) m <> 0 -> run s (ETrace t m l :: es2) = Some s1 -> along (fun s _ => session s c) s (ETrace t m l :: es2) ->
  gone s1 c = false -> ems s1 t = Idle -> exists a b, got s1 c = got s c ++ a ++ l :: b.
Proof.
  intros R M Ru A G Id. pose proof (reached_I1 es s R) as I. cbn [run along] in Ru, A. destruct A as [A1 A]. destruct (step s (ETrace t m l)) as [s2|] eqn:E; [|discriminate].
  pose proof (step_I1 _ _ _ I E) as I'. pose proof (step_runs _ _ _ E) as St. unfold step in E. rewrite St in E.
  destruct t; [discriminate|]. destruct (ems s (S t)) eqn:Em; try discriminate. injection E as E. unfold traces in E. apply Z.eqb_neq in M. rewrite M in E. subst s2.
  destruct (arrives false c (S t) l es2 _ s1 I') as (a & b & X); auto.
  - left. cbn [wEm ems]. apply upd_same.
  - apply along_impl with (fun s _ => session s c); [|auto]. intros. split; [auto|discriminate].
  - exists a, b. exact X.
Qed.

(** A text logged goes to stderr, and with TRACE_LOG to the client. *)
Lemma log_arrives es s t v l c es2 s1 :
  reached es s -> v <= level s -> run s (ELog t v l :: es2) = Some s1 ->
  along (fun s _ => session s c /\ Z.land (mask s) 1 <> 0) s (ELog t v l :: es2) ->
  gone s1 c = false -> ems s1 t = Idle -> exists a b, got s1 c = got s c ++ a ++ l :: b.
Proof.
  intros R V Ru A G Id. pose proof (reached_I1 es s R) as I. cbn [run along] in Ru, A. destruct A as [A1 A]. destruct (step s (ELog t v l)) as [s2|] eqn:E; [|discriminate].
  pose proof (step_I1 _ _ _ I E) as I'. pose proof (step_runs _ _ _ E) as St. unfold step in E. rewrite St in E.
  destruct t; [discriminate|]. destruct (ems s (S t)) eqn:Em; try discriminate. injection E as E. unfold logs in E.
  assert (Lt : level s <? v = false) by (apply Z.ltb_ge; auto). rewrite Lt in E. subst s2.
  destruct (arrives true c (S t) l es2 _ s1 I') as (a & b & X); auto.
  - right; right; right. cbn [wEm ems]. rewrite upd_same. auto.
  - apply along_impl with (fun s _ => session s c /\ Z.land (mask s) 1 <> 0); [|auto]. intros s0 e0 [P Q]. auto.
  - exists a, b. exact X.
Qed.

(** ** stderr *)

Lemma step_err s e s1 : I1 s -> step s e = Some s1 -> exists a, err s1 = err s ++ a.
Proof.
  intros J E. pose proof (step_runs s e s1 E) as Ru. unfold step in E. rewrite Ru in E.
  assert (SM : forall s2, err s2 = err s -> exists a, err s2 = err s ++ a) by (intros s2 ->; exists []; rewrite app_nil_r; auto).
  assert (LG : forall t v l, exists a, err (logs s t v l) = err s ++ a) by (intros t v l; unfold logs; destruct (level s <? v); [apply SM; auto|cbn; eauto]).
  assert (WR : forall d l s2, write s d l = Some s2 -> err s2 = err s).
  { intros d l s2. unfold write. destruct (fds s d) as [[c|n|]|]; try (intros H; injection H as <-; auto; fail).
    destruct (gone s c); [intros H; injection H as <-; destruct (ign s); auto|]. destruct (full s c); [discriminate|]. intros H; injection H as <-; auto. }
  destruct e; try (injection E as <-; apply SM; auto; fail).
  - destruct t; [discriminate|]. destruct (ems s (S t)); try discriminate. injection E as <-. apply SM. unfold traces. destruct (Z.land (mask s) m =? 0); auto.
  - destruct t; [discriminate|]. destruct (ems s (S t)); try discriminate. injection E as <-. apply LG.
  - unfold emit in E. destruct (ems s t) eqn:Em; try discriminate.
    + injection E as <-. apply SM; auto.
    + destruct (lock s); [discriminate|]. injection E as <-. apply SM; auto.
    + injection E as <-. apply SM; auto.
    + destruct (vprint s l) as [s2|] eqn:V; [|discriminate]. injection E as <-. cbn. unfold vprint in V. destruct (tf s).
      * injection V as <-. apply SM; auto.
      * injection V as <-. cbn. eauto.
      * destruct (files s f); [apply SM; apply WR with n l; auto|injection V as <-; apply SM; auto].
    + injection E as <-. apply SM; auto.
  - unfold serve in E. destruct (ems s 0%nat); try discriminate.
    destruct (pc s) as [ | |cd|cd|cd|cd|cd|cd|cd|cd|cd|cd|cd|cd|cd|cd|cd|cd|cd|cd|cd| | | ]; try (injection E as <-; cbn [wPc err]; auto; fail); try (injection E as <-; apply SM; auto; fail).
    + destruct ok; [|injection E as <-; apply SM; auto]. destruct (tq s); [discriminate|]. destruct (lowest s d); [|discriminate]. injection E as <-. apply SM; auto.
    + destruct cd; injection E as <-; [apply SM; auto|cbn [wPc err]; auto].
    + destruct (lock s); [discriminate|]. injection E as <-. apply SM; auto.
    + destruct ok; injection E as <-; apply SM; auto.
    + injection E as <-. apply SM. destruct (tf s); [| |destruct (files s f)]; auto.
    + destruct (fds s cd) as [[c|n|]|]; try (injection E as <-; apply SM; auto; fail). destruct (gone s c || sent s c); [|discriminate]. injection E as <-. apply SM; auto.
    + destruct (lock s); [discriminate|]. injection E as <-. apply SM; auto.
    + injection E as <-. apply SM. destruct (tf s); [| |destruct (files s f)]; auto.
  - destruct (flow s); [|discriminate]. destruct (fq s); [discriminate|]. destruct (lowest s d); [|discriminate]. injection E as <-. apply SM; auto.
  - destruct (flow s); [discriminate|]. apply SM. apply WR with cd l. auto.
  - destruct (flow s) as [|cd [x|]]; try discriminate. destruct (lowest s d); [|discriminate]. injection E as <-. apply SM; auto.
  - destruct (flow s) as [|cd [x|]]; try discriminate. apply SM. apply WR with x l. auto.
  - destruct (flow s) as [|cd out]; [discriminate|]. injection E as <-. apply SM. destruct out; auto.
  - destruct (lowest s d); [|discriminate]. injection E as <-. apply SM; auto.
  - destruct (existsb _ _); [|discriminate]. destruct (fds s d); injection E as <-; apply SM; auto.
  - injection E as <-. apply SM. destruct trace; auto.
  - destruct (Nat.ltb _ _); [|discriminate]. injection E as <-. apply SM; auto.
  - destruct (_ && _); [|discriminate]. injection E as <-. apply SM; auto.
  - destruct (Nat.ltb _ _); [|discriminate]. injection E as <-. apply SM; auto.
  - destruct (Nat.ltb _ _); [|discriminate]. injection E as <-. apply SM; auto.
Qed.

Lemma run_err es : forall s s1, I1 s -> run s es = Some s1 -> exists a, err s1 = err s ++ a.
Proof.
  induction es as [|e r IH]; intros s s1 I R; cbn in R.
  - injection R as <-. exists []. rewrite app_nil_r. auto.
  - destruct (step s e) as [s2|] eqn:E; [|discriminate]. destruct (step_err s e s2 I E) as [a A]. destruct (IH s2 s1 (step_I1 _ _ _ I E) R) as [b B].
    exists (a ++ b). rewrite B, A, app_assoc. auto.
Qed.

(** The log has what was logged at the level or above, always *)
Lemma logged es s t v l es2 s1 : reached es s -> v <= level s -> run s (ELog t v l :: es2) = Some s1 -> exists b, err s1 = err s ++ l :: b.
Proof.
  intros R V Ru. pose proof (reached_I1 es s R) as I. cbn [run] in Ru. destruct (step s (ELog t v l)) as [s2|] eqn:E; [|discriminate].
  pose proof (step_I1 _ _ _ I E) as I'. pose proof (step_runs _ _ _ E) as St. unfold step in E. rewrite St in E.
  destruct t; [discriminate|]. destruct (ems s (S t)) eqn:Em; try discriminate. injection E as E. unfold logs in E.
  assert (Lt : level s <? v = false) by (apply Z.ltb_ge; auto). rewrite Lt in E. subst s2. destruct (run_err es2 _ s1 I' Ru) as [b B].
  exists b. rewrite B. cbn. rewrite <- app_assoc. auto.
Qed.
