(** Descriptors in histories in which no descriptor is opened while the trace
    server has a stale one *)
From Coq Require Import String.
From Verif Require Import Base Lists Cstr_Model Util_Proofs Log_Model Log_Spec Log_Proofs.
Set Default Goal Selector "!".

(** The descriptor the server has open *)
Definition pcd (p : spc) : option nat :=
  match p with
  | S100 cd | S101 cd => cd
  | S105 d | S106 d | S108 d | S109 d | S110 d => Some d
  | _ => inSess p
  end.

Record I2 (ks : list bool) (s : state) : Prop := {
  f_n : length ks = nconn s;
  f_tq : forall c, In c (tq s) -> nth_error ks c = Some true;
  f_fq : forall c, In c (fq s) -> nth_error ks c = Some false;
  f_conn : forall d c, fds s d = Some (OConn c) -> (c < nconn s)%nat;
  f_pc : forall d, pcd (pc s) = Some d -> exists c, fds s d = Some (OConn c) /\ nth_error ks c = Some true;
  f_stale : forall d, stale (pc s) = Some d -> fds s d = None;
  f_flow : forall cd out, flow s = FServe cd out ->
    exists c, fds s cd = Some (OConn c) /\ nth_error ks c = Some false /\ forall d, out = Some d -> fds s d = Some (OConn c) /\ d <> cd;
  f_held : forall n d, In (n, d) (held s) -> fds s d = Some (OShm n)
}.

Lemma I2_same ks s1 s2 :
  I2 ks s1 -> fds s2 = fds s1 -> pc s2 = pc s1 -> flow s2 = flow s1 -> held s2 = held s1 -> tq s2 = tq s1 -> fq s2 = fq s1 -> nconn s2 = nconn s1 -> I2 ks s2.
Proof. intros [A B C D E F G H] A1 A2 A3 A4 A5 A6 A7. constructor; rewrite ?A1, ?A2, ?A3, ?A4, ?A5, ?A6, ?A7; auto. Qed.

Lemma I2_pc ks s p : I2 ks s -> (forall d, pcd p = Some d -> pcd (pc s) = Some d) -> (forall d, stale p = Some d -> stale (pc s) = Some d \/ fds s d = None) -> I2 ks (wPc p s).
Proof.
  intros [A B C D E F G H] X Y. constructor; cbn; auto. intros d Z. destruct (Y d Z); auto.
Qed.

(** A new descriptor *)
Lemma I2_open ks s d o :
  I2 ks s -> fds s d = None -> stale (pc s) = None -> (forall c, o = OConn c -> (c < nconn s)%nat) -> I2 ks (wFd d (Some o) s).
Proof.
  intros [A B C D E F G H] N St O. constructor; cbn; auto.
  - intros d0 c. unfold upd. destruct (Nat.eqb_spec d0 d); [intros X; injection X as ->; auto|apply D].
  - intros d0 X. destruct (E d0 X) as [c [Y Z]]. exists c. rewrite upd_other; [auto|congruence].
  - intros d0 X. congruence.
  - intros cd out X. destruct (G cd out X) as (c & Y1 & Y2 & Y3). exists c. rewrite upd_other; [|congruence]. split; [auto|]. split; [auto|].
    intros d0 Z. destruct (Y3 d0 Z). rewrite upd_other; [auto|congruence].
  - intros n d0 X. apply H in X. rewrite upd_other; [auto|congruence].
Qed.

Lemma lowest_free s d : lowest s d = true -> fds s d = None.
Proof. unfold lowest. destruct (fds s d); [discriminate|auto]. Qed.

(** The server closes its descriptor *)
Lemma I2_close ks s d p :
  I2 ks s -> pcd (pc s) = Some d -> pcd p = None -> (forall x, stale p = Some x -> x = d) -> I2 ks (wPc p (wFd d None s)).
Proof.
  intros [A B C D E F G H] P Q R. destruct (E d P) as [c [Fc Kc]]. constructor; cbn; auto.
  - intros d0 c0. unfold upd. destruct (Nat.eqb_spec d0 d); [discriminate|apply D].
  - congruence.
  - intros x X. rewrite (R x X). apply upd_same.
  - intros cd out X. destruct (G cd out X) as (c1 & Y1 & Y2 & Y3). exists c1. rewrite upd_other; [|congruence]. split; [auto|]. split; [auto|].
    intros d0 Z. destruct (Y3 d0 Z). rewrite upd_other; [auto|congruence].
  - intros n d0 X. apply H in X. rewrite upd_other; [auto|congruence].
Qed.

(** Closing a descriptor that is closed *)
Lemma I2_closed ks s d : I2 ks s -> fds s d = None -> I2 ks (wFd d None s).
Proof.
  intros [A B C D E F G H] N. constructor; cbn; auto.
  - intros d0 c0. unfold upd. destruct (Nat.eqb_spec d0 d); [discriminate|apply D].
  - intros d0 X. destruct (E d0 X) as [c [Y Z]]. exists c. rewrite upd_other; [auto|congruence].
  - intros d0 X. unfold upd. destruct (Nat.eqb_spec d0 d); auto.
  - intros cd out X. destruct (G cd out X) as (c1 & Y1 & Y2 & Y3). exists c1. rewrite upd_other; [|congruence]. split; [auto|]. split; [auto|].
    intros d0 Z. destruct (Y3 d0 Z). rewrite upd_other; [auto|congruence].
  - intros n d0 X. apply H in X. rewrite upd_other; [auto|congruence].
Qed.

Lemma logs_same s t v l : let s1 := logs s t v l in
  st s1 = st s /\ lock s1 = lock s /\ tf s1 = tf s /\ files s1 = files s /\ nfile s1 = nfile s /\ pc s1 = pc s /\
  fds s1 = fds s /\ flow s1 = flow s /\ held s1 = held s /\ tq s1 = tq s /\ fq s1 = fq s /\ nconn s1 = nconn s /\ gone s1 = gone s /\ ign s1 = ign s /\
  mask s1 = mask s /\ level s1 = level s /\ full s1 = full s /\ got s1 = got s.
Proof. unfold logs. destruct (level s <? v); repeat split; auto. Qed.

Lemma traces_same s t m l : let s1 := traces s t m l in
  st s1 = st s /\ lock s1 = lock s /\ tf s1 = tf s /\ files s1 = files s /\ nfile s1 = nfile s /\ pc s1 = pc s /\
  fds s1 = fds s /\ flow s1 = flow s /\ held s1 = held s /\ tq s1 = tq s /\ fq s1 = fq s /\ nconn s1 = nconn s /\ gone s1 = gone s /\ ign s1 = ign s /\
  mask s1 = mask s /\ level s1 = level s /\ full s1 = full s /\ got s1 = got s.
Proof. unfold traces. destruct (Z.land (mask s) m =? 0); repeat split; auto. Qed.

Lemma logs_I2 ks s t v l : I2 ks s -> I2 ks (logs s t v l).
Proof. intros I. pose proof (logs_same s t v l) as X. cbv zeta in X. decompose [and] X. apply I2_same with s; auto. Qed.

Lemma emit_same s t s1 : I1 s -> emit s t = Some s1 ->
  (st s1 = st s \/ st s1 = Killed) /\ tf s1 = tf s /\ files s1 = files s /\ nfile s1 = nfile s /\ pc s1 = pc s /\
  fds s1 = fds s /\ flow s1 = flow s /\ held s1 = held s /\ tq s1 = tq s /\ fq s1 = fq s /\ nconn s1 = nconn s /\ gone s1 = gone s /\ ign s1 = ign s /\
  mask s1 = mask s /\ level s1 = level s /\ full s1 = full s.
Proof.
  intros I E. unfold emit in E. destruct (ems s t) eqn:Em; try discriminate.
  - injection E as <-. repeat split; auto.
  - destruct (lock s); [discriminate|]. injection E as <-. repeat split; auto.
  - injection E as <-. repeat split; auto.
  - destruct (vprint s l) as [s2|] eqn:V; [|discriminate]. injection E as <-. pose proof (vprint_ok s t l s2 I Em V) as X. decompose [and] X.
    repeat split; auto.
  - injection E as <-. repeat split; auto.
Qed.

Lemma serve_I2 ks s d ok s1 : I1 s -> I2 ks s -> serve s d ok = Some s1 -> I2 ks s1.
Proof.
  intros I1s I E. unfold serve in E. destruct (ems s 0%nat) eqn:Id; try discriminate.
  assert (LG : forall v l p, (forall d, pcd p = Some d -> pcd (pc s) = Some d) -> stale p = None -> I2 ks (wPc p (logs s 0 v l))).
  { intros v l p X Y. apply I2_pc; [apply logs_I2; auto|rewrite logs_pc; auto|congruence]. }
  destruct (pc s) as [ | |cd|cd|cd|cd|cd|cd|cd|cd|cd|cd|cd|cd|cd|cd|cd|cd|cd|cd|cd| | | ] eqn:P.
  - injection E as <-. apply LG; auto.
  - destruct ok.
    + destruct (tq s) as [|c q] eqn:Q; [discriminate|]. destruct (lowest s d) eqn:Lo; [|discriminate]. injection E as <-.
      assert (K : nth_error ks c = Some true) by (apply (f_tq ks s I); rewrite Q; left; auto).
      assert (Lt : (c < nconn s)%nat) by (rewrite <- (f_n ks s I); apply nth_error_Some; congruence).
      assert (J : I2 ks (wFd d (Some (OConn c)) s)).
      { apply I2_open; auto; [apply lowest_free; auto|rewrite P; reflexivity|congruence]. }
      destruct J as [A B C D E F G H]. constructor; cbn; auto.
      * intros c0 X. apply (f_tq ks s I). rewrite Q. right. auto.
      * intros d0 X. injection X as <-. exists c. rewrite upd_same. auto.
      * discriminate.
    + injection E as <-. apply I2_pc; auto; discriminate.
  - injection E as <-. apply LG; auto.
  - destruct cd; injection E as <-; [|apply LG; auto; discriminate]. apply I2_pc; rewrite ?P; auto; discriminate.
  - destruct (lock s); [discriminate|]. injection E as <-. apply I2_pc; cbn [wLock pc]; rewrite ?P; auto; try discriminate. apply I2_same with s; auto.
  - destruct ok; injection E as <-; apply I2_pc; cbn [newFile wTf pc]; rewrite ?P; auto; try discriminate; apply I2_same with s; auto.
  - injection E as <-. apply I2_pc; cbn [wLock pc]; rewrite ?P; auto; try discriminate. apply I2_same with s; auto.
  - injection E as <-. apply LG; auto.
  - injection E as <-. apply I2_close; rewrite ?P; auto. discriminate.
  - destruct (i_sess s I1s cd) as [f [T Fi]]; [rewrite P; reflexivity|]. rewrite T, Fi in E. injection E as <-. apply I2_pc; rewrite ?P; auto; discriminate.
  - injection E as <-. apply I2_pc; cbn [wLock pc]; rewrite ?P; auto; try discriminate. apply I2_same with s; auto.
  - injection E as <-. apply LG; auto.
  - injection E as <-. apply I2_pc; cbn [wEm pc]; rewrite ?P; auto; try discriminate. apply I2_same with s; auto.
  - injection E as <-. apply I2_pc; cbn [wIgn pc]; rewrite ?P; auto; try discriminate. apply I2_same with s; auto.
  - assert (E2 : Some (wPc (S128 cd) s) = Some s1).
    { destruct (fds s cd) as [[c|n|]|]; auto. destruct (gone s c || sent s c); [auto|discriminate]. }
    injection E2 as <-. apply I2_pc; rewrite ?P; auto; discriminate.
  - injection E as <-. apply I2_pc; cbn [wEm pc]; rewrite ?P; auto; try discriminate. apply I2_same with s; auto.
  - injection E as <-. apply I2_pc; cbn [wMask pc]; rewrite ?P; auto; try discriminate. apply I2_same with s; auto.
  - destruct (lock s); [discriminate|]. injection E as <-. apply I2_pc; cbn [wLock pc]; rewrite ?P; auto; try discriminate. apply I2_same with s; auto.
  - destruct (i_sess s I1s cd) as [f [T Fi]]; [rewrite P; reflexivity|]. rewrite T, Fi in E. injection E as <-.
    change (I2 ks (wPc (S133 cd) (wFd cd None (wFile f None s)))). apply I2_close; cbn [wFile pc]; rewrite ?P; auto; [apply I2_same with s; auto|].
    cbn. intros x X. congruence.
  - injection E as <-. apply I2_pc; cbn [wTf pc]; rewrite ?P; auto; try discriminate. apply I2_same with s; auto.
  - injection E as <-. apply I2_pc; cbn [wFd pc]; rewrite ?P; auto; try discriminate. apply I2_closed; auto. apply (f_stale ks s I). rewrite P. reflexivity.
  - injection E as <-. apply I2_pc; cbn [wLock pc]; rewrite ?P; auto; try discriminate. apply I2_same with s; auto.
  - injection E as <-. apply I2_pc; cbn [wIgn pc]; rewrite ?P; auto; try discriminate. apply I2_same with s; auto.
  - injection E as <-. apply LG; auto.
Qed.

Definition kinds_after (ks : list bool) (e : event) : list bool := ks ++ connects [e].

Lemma I2_app ks s e : I2 ks s -> connects [e] = [] -> I2 (kinds_after ks e) s.
Proof. intros I H. unfold kinds_after. rewrite H, app_nil_r. auto. Qed.

Lemma held_in n d l : existsb (fun x : chars * nat => streq (fst x) n && Nat.eqb (snd x) d) l = true -> In (n, d) l.
Proof.
  intros H. apply existsb_exists in H. destruct H as [[n0 d0] [A B]]. cbn in B. apply andb_true_iff in B. destruct B as [B C].
  apply streq_eq in B. apply Nat.eqb_eq in C. subst. auto.
Qed.

Lemma held_drop n d n0 d0 l : In (n0, d0) (dropHeld n d l) -> In (n0, d0) l /\ (d0 = d -> n0 <> n).
Proof.
  unfold dropHeld. intros H. apply filter_In in H. destruct H as [A B]. split; [auto|]. intros -> ->. cbn in B. rewrite streq_refl, Nat.eqb_refl in B. discriminate.
Qed.

Lemma step_I2 ks s e s1 : I1 s -> I2 ks s -> clean s e -> step s e = Some s1 -> I2 (kinds_after ks e) s1.
Proof.
  intros J I Cl E. pose proof (step_runs s e s1 E) as Ru. unfold step in E. rewrite Ru in E. destruct e; try (apply I2_app; [|reflexivity]).
  - destruct t; [discriminate|]. destruct (ems s (S t)) eqn:Em; try discriminate. injection E as <-.
    pose proof (traces_same s (S t) m l) as X. cbv zeta in X. decompose [and] X. apply I2_same with s; auto.
  - destruct t; [discriminate|]. destruct (ems s (S t)) eqn:Em; try discriminate. injection E as <-. apply logs_I2; auto.
  - pose proof (emit_same s t s1 J E) as X. decompose [and] X. apply I2_same with s; auto.
  - apply serve_I2 with s d ok; auto.
  - destruct (flow s) eqn:Fl; [|discriminate]. destruct (fq s) as [|c q] eqn:Q; [discriminate|]. destruct (lowest s d) eqn:Lo; [|discriminate]. injection E as <-.
    assert (K : nth_error ks c = Some false) by (apply (f_fq ks s I); rewrite Q; left; auto).
    assert (Lt : (c < nconn s)%nat) by (rewrite <- (f_n ks s I); apply nth_error_Some; congruence).
    assert (I' : I2 ks (wFd d (Some (OConn c)) s)).
    { apply I2_open; auto; [apply lowest_free; auto|congruence]. }
    destruct I' as [A B C D E F G H]. constructor; cbn; auto.
    + intros c0 X. apply (f_fq ks s I). rewrite Q. right. auto.
    + intros cd out X. injection X as <- <-. exists c. rewrite upd_same. repeat split; auto; discriminate.
  - destruct (flow s); [discriminate|]. apply write_same in E. decompose [and] E. apply I2_same with s; auto.
  - destruct (flow s) as [|cd [x|]] eqn:Fl; try discriminate. destruct (lowest s d) eqn:Lo; [|discriminate]. injection E as <-.
    destruct (f_flow ks s I cd None Fl) as (c & Fc & Kc & _).
    assert (I' : I2 ks (wFd d (fds s cd) s)).
    { rewrite Fc. apply I2_open; auto; [apply lowest_free; auto|]. intros c0 X. injection X as <-. apply (f_conn ks s I cd). auto. }
    destruct I' as [A B C D E F G H]. constructor; cbn; auto.
    intros cd0 out X. injection X as <- <-. apply lowest_free in Lo. exists c. rewrite upd_other; [|congruence]. split; [auto|]. split; [auto|].
    intros d0. rewrite Fc. intros X. injection X as <-. rewrite upd_same. split; [auto|congruence].
  - destruct (flow s) as [|cd [x|]]; try discriminate. apply write_same in E. decompose [and] E. apply I2_same with s; auto.
  - destruct (flow s) as [|cd out] eqn:Fl; [discriminate|]. injection E as <-. destruct (f_flow ks s I cd out Fl) as (c & Fc & Kc & Oc).
    assert (FD : forall d0, fds (match out with Some d => wFd d None (wFd cd None s) | None => wFd cd None s end) d0 = fds s d0 \/
                 fds (match out with Some d => wFd d None (wFd cd None s) | None => wFd cd None s end) d0 = None /\ fds s d0 = Some (OConn c)).
    { intros d0. destruct out as [d|]; cbn; unfold upd.
      - destruct (Nat.eqb_spec d0 d) as [->|]; [right; destruct (Oc d eq_refl); auto|]. destruct (Nat.eqb_spec d0 cd) as [->|]; auto.
      - destruct (Nat.eqb_spec d0 cd) as [->|]; auto. }
    assert (SM : let s2 := match out with Some d => wFd d None (wFd cd None s) | None => wFd cd None s end in pc s2 = pc s /\ held s2 = held s /\ tq s2 = tq s /\ fq s2 = fq s /\ nconn s2 = nconn s)
      by (destruct out; repeat split; auto).
    cbv zeta in SM. destruct SM as (S1 & S2 & S3 & S4 & S5). remember (match out with Some d => wFd d None (wFd cd None s) | None => wFd cd None s end) as s2.
    destruct I as [A B C D E F G H]. constructor; cbn; rewrite ?S1, ?S2, ?S3, ?S4, ?S5; auto.
    + intros d0 c0 X. destruct (FD d0) as [Y|[Y _]]; rewrite Y in X; [apply (D d0); auto|discriminate].
    + intros d0 X. destruct (E d0 X) as [c0 [Y Z]]. exists c0. destruct (FD d0) as [W|[_ W]]; [rewrite W; auto|congruence].
    + intros d0 X. destruct (FD d0) as [W|[W _]]; [rewrite W; auto|auto].
    + discriminate.
    + intros n d0 X. apply H in X. destruct (FD d0) as [W|[_ W]]; [rewrite W; auto|congruence].
  - destruct (lowest s d) eqn:Lo; [|discriminate]. injection E as <-.
    assert (I' : I2 ks (wFd d (Some (OShm n)) s)) by (apply I2_open; auto; [apply lowest_free; auto|discriminate]).
    destruct I' as [A B C D E F G H]. constructor; cbn; auto. intros n0 d0 [X|X]; [injection X as <- <-; apply upd_same|apply H; auto].
  - destruct (existsb _ _) eqn:Ex; [|discriminate]. apply held_in in Ex. pose proof (f_held ks s I n d Ex) as Fd. rewrite Fd in E. injection E as <-.
    destruct I as [A B C D E F G H]. constructor; cbn; auto.
    + intros d0 c0. unfold upd. destruct (Nat.eqb_spec d0 d); [discriminate|apply D].
    + intros d0 X. destruct (E d0 X) as [c0 [Y Z]]. exists c0. rewrite upd_other; [auto|congruence].
    + intros d0 X. unfold upd. destruct (Nat.eqb_spec d0 d); auto.
    + intros cd out X. destruct (G cd out X) as (c1 & Y1 & Y2 & Y3). exists c1. rewrite upd_other; [|congruence]. split; [auto|]. split; [auto|].
      intros d0 Z. destruct (Y3 d0 Z). rewrite upd_other; [auto|congruence].
    + intros n0 d0 X. apply held_drop in X. destruct X as [X Y]. apply H in X. rewrite upd_other; [auto|]. intros ->. apply Y; [auto|congruence].
  - injection E as <-. unfold kinds_after. cbn [connects flat_map]. destruct I as [A B C D E F G H].
    assert (K : forall c b, nth_error ks c = Some b -> nth_error (ks ++ [trace] ++ []) c = Some b).
    { intros c b X. rewrite nth_error_app1; [auto|]. apply nth_error_Some. congruence. }
    assert (N : nth_error (ks ++ [trace] ++ []) (nconn s) = Some trace).
    { rewrite <- A, nth_error_app2 by lia. rewrite Nat.sub_diag. reflexivity. }
    assert (Len : length (ks ++ [trace] ++ []) = S (nconn s)) by (rewrite app_length; cbn; lia).
    destruct trace; constructor; cbn; auto;
      repeat match goal with
      | |- forall c, In c (_ ++ [_]) -> _ => intros c X; apply in_app_or in X; destruct X as [X|[<-|[]]]; auto
      | |- forall d c, _ = Some (OConn c) -> _ => intros d c X; apply D in X; lia
      | |- forall d, pcd _ = _ -> _ => intros d X; destruct (E d X) as (c & Y & Z); exists c; auto
      | |- forall cd out, _ -> _ => intros cd out X; destruct (G cd out X) as (c & Y & Z & W); exists c; auto
      end.
  - destruct (Nat.ltb _ _); [|discriminate]. injection E as <-. apply I2_same with s; auto.
  - destruct (_ && _); [|discriminate]. injection E as <-. apply I2_same with s; auto.
  - destruct (Nat.ltb _ _); [|discriminate]. injection E as <-. apply I2_same with s; auto.
  - destruct (Nat.ltb _ _); [|discriminate]. injection E as <-. apply I2_same with s; auto.
  - injection E as <-. apply I2_same with s; auto.
  - injection E as <-. apply I2_same with s; auto.
Qed.

Lemma start_I2 n m v : I2 [] (start n m v).
Proof.
  constructor; cbn; auto; try contradiction; try discriminate.
  intros d c. match goal with |- (if ?b then _ else _) = _ -> _ => destruct b; discriminate end.
Qed.

(** Facts that hold at the start and are kept by every event allowed by P hold
    in every state reached. *)
Lemma reached_ind (P : state -> event -> Prop) (Q : list event -> state -> Prop) :
  (forall n m v, Q [] (start n m v)) ->
  (forall es s e s1, Q es s -> P s e -> step s e = Some s1 -> Q (es ++ [e]) s1) ->
  forall es s, reachedBy P es s -> Q es s.
Proof.
  intros H0 HS.
  assert (G : forall es h s s1, Q h s -> run s es = Some s1 -> along P s es -> Q (h ++ es) s1).
  { induction es as [|e r IH]; intros h s s1 Hq R A; cbn in R, A.
    - injection R as <-. rewrite app_nil_r. auto.
    - destruct A as [A1 A2]. destruct (step s e) as [s2|] eqn:E; [|discriminate]. replace (h ++ e :: r) with ((h ++ [e]) ++ r) by (rewrite <- app_assoc; reflexivity).
      apply IH with s2; auto. apply HS with s; auto. }
  intros es s (n & m & v & R & A). apply (G es [] (start n m v)); auto.
Qed.

Lemma connects_app a b : connects (a ++ b) = connects a ++ connects b.
Proof. unfold connects. apply flat_map_app. Qed.

Lemma reached_I2 es s : reachedBy clean es s -> I1 s /\ I2 (connects es) s.
Proof.
  revert es s. apply reached_ind.
  - intros. split; [apply start_I1|apply start_I2].
  - intros es s e s1 [A B] C E. split; [apply step_I1 with s e; auto|]. rewrite connects_app. apply step_I2 with s; auto.
Qed.

Lemma along_impl (P Q : state -> event -> Prop) : (forall s e, P s e -> Q s e) -> forall es s, along P s es -> along Q s es.
Proof.
  intros H. induction es as [|e r IH]; cbn; auto. intros s [A B]. split; [auto|]. destruct (step s e); auto.
Qed.

Lemma reachedBy_impl (P Q : state -> event -> Prop) es s : (forall s e, P s e -> Q s e) -> reachedBy P es s -> reachedBy Q es s.
Proof. intros H (n & m & v & R & A). exists n, m, v. split; [auto|]. apply along_impl with P; auto. Qed.

Lemma reachedBy_reached P es s : reachedBy P es s -> reached es s.
Proof. intros (n & m & v & R & A). exists n, m, v. auto. Qed.

(** ** Who gets what *)

Definition text (e : estate) : option chars := match e with Check l | Want l | Have l | Print l => Some l | _ => None end.

Record I3 (es : list event) (s : state) : Prop := {
  x_em : forall t l, text (ems s t) = Some l -> traced es l \/ ownText l;
  x_got : forall c l, In l (got s c) -> (c < nconn s)%nat /\ (isTrace es c -> traced es l \/ ownText l) /\ (isFlow es c -> replied es l)
}.

Lemma traced_app es e l : traced es l -> traced (es ++ [e]) l.
Proof. intros [(t & m & H)|(t & v & H)]; [left|right]; exists t; eexists; apply in_or_app; left; eauto. Qed.
Lemma replied_app es e l : replied es l -> replied (es ++ [e]) l.
Proof. intros [H|H]; [left|right]; apply in_or_app; auto. Qed.
Lemma kind_app es e c b : (c < length (connects es))%nat -> nth_error (connects (es ++ [e])) c = Some b -> nth_error (connects es) c = Some b.
Proof. intros L. rewrite connects_app, nth_error_app1 by auto. auto. Qed.

Lemma I3_mono es e s s1 : I2 (connects es) s -> I3 es s -> nconn s = nconn s1 \/ nconn s1 = S (nconn s) ->
  (forall t l, text (ems s1 t) = Some l -> text (ems s t) = Some l \/ traced (es ++ [e]) l \/ ownText l) ->
  (forall c l, In l (got s1 c) -> In l (got s c) \/ ((c < nconn s)%nat /\ (isTrace es c -> traced (es ++ [e]) l \/ ownText l) /\ (isFlow es c -> replied (es ++ [e]) l))) ->
  I3 (es ++ [e]) s1.
Proof.
  intros I [A B] N HE HG. constructor.
  - intros t l X. destruct (HE t l X) as [Y|Y]; [|auto]. destruct (A t l Y); [left; apply traced_app; auto|auto].
  - intros c l X. destruct (HG c l X) as [Y|(Y & Z & W)].
    + destruct (B c l Y) as (L & T & F). split; [lia|]. assert (LC : (c < length (connects es))%nat) by (rewrite (f_n _ _ I); auto). split.
      * intros K. apply kind_app in K; [|auto]. destruct (T K); [left; apply traced_app; auto|auto].
      * intros K. apply kind_app in K; [|auto]. apply replied_app. auto.
    + split; [lia|]. assert (LC : (c < length (connects es))%nat) by (rewrite (f_n _ _ I); auto). split; intros K; apply kind_app in K; auto.
Qed.

Lemma write_got s d l s1 : write s d l = Some s1 -> got s1 = got s \/ exists c, fds s d = Some (OConn c) /\ gone s c = false /\ got s1 = upd (got s) c (got s c ++ [l]).
Proof.
  unfold write. destruct (fds s d) as [[c|n|]|]; try (intros H; injection H as <-; auto; fail).
  destruct (gone s c) eqn:G; [intros H; injection H as <-; destruct (ign s); auto|]. destruct (full s c); [discriminate|]. intros H. injection H as <-.
  right. exists c. auto.
Qed.

(** The client that a text goes to *)
Lemma vprint_got s t l s1 : I1 s -> ems s t = Print l -> vprint s l = Some s1 ->
  got s1 = got s \/ exists d c, inSess (pc s) = Some d /\ fds s d = Some (OConn c) /\ gone s c = false /\ got s1 = upd (got s) c (got s c ++ [l]).
Proof.
  intros I Em V. unfold vprint in V. destruct (tf s) eqn:T.
  - exfalso. apply (i_print s I t l Em T).
  - injection V as <-. left. reflexivity.
  - destruct (i_file s I f T) as [d [[Hs Hf]|Hp]].
    + rewrite Hf in V. apply write_got in V. destruct V as [V|(c & A & B & C)]; [auto|]. right. exists d, c. auto.
    + exfalso. assert (Lk : lock s = Some t) by (apply (i_busy s I); rewrite Em; reflexivity).
      assert (Cr : crit (pc s) = true) by (rewrite Hp; reflexivity). destruct (i_crit s I Cr) as [L0 Id]. rewrite Lk in L0. injection L0 as ->. congruence.
Qed.

Lemma emit_got s t s1 : I1 s -> emit s t = Some s1 ->
  got s1 = got s \/ exists d c l, ems s t = Print l /\ inSess (pc s) = Some d /\ fds s d = Some (OConn c) /\ gone s c = false /\ got s1 = upd (got s) c (got s c ++ [l]).
Proof.
  intros I E. unfold emit in E. destruct (ems s t) eqn:Em; try discriminate.
  - injection E as <-. auto.
  - destruct (lock s); [discriminate|]. injection E as <-. auto.
  - injection E as <-. auto.
  - destruct (vprint s l) as [s2|] eqn:V; [|discriminate]. injection E as <-. destruct (vprint_got s t l s2 I Em V) as [G|(d & c & A & B & C & D)]; [auto|].
    right. exists d, c, l. auto.
  - injection E as <-. auto.
Qed.

Lemma emit_text s t s1 : I1 s -> emit s t = Some s1 -> forall t0 l, text (ems s1 t0) = Some l -> text (ems s t0) = Some l.
Proof.
  intros I E t0 l. unfold emit in E. destruct (ems s t) eqn:Em; try discriminate.
  - injection E as <-. cbn. unfold upd. destruct (Nat.eqb_spec t0 t) as [->|]; [|auto]. rewrite Em. destruct (tf s); [|destruct (Z.land (mask s) 1 =? 0)..]; auto; discriminate.
  - destruct (lock s); [discriminate|]. injection E as <-. cbn. unfold upd. destruct (Nat.eqb_spec t0 t) as [->|]; [|auto]. rewrite Em. auto.
  - injection E as <-. cbn. unfold upd. destruct (Nat.eqb_spec t0 t) as [->|]; [|auto]. rewrite Em. destruct (tf s); auto; discriminate.
  - destruct (vprint s l0) as [s2|] eqn:V; [|discriminate]. injection E as <-. pose proof (vprint_ok s t l0 s2 I Em V) as X. decompose [and] X.
    cbn. unfold upd. destruct (Nat.eqb_spec t0 t) as [->|]; [discriminate|]. congruence.
  - injection E as <-. cbn. unfold upd. destruct (Nat.eqb_spec t0 t) as [->|]; [discriminate|auto].
Qed.

Lemma logs_text s t v l t0 x : ems s t = Idle -> text (ems (logs s t v l) t0) = Some x -> text (ems s t0) = Some x \/ x = l.
Proof.
  intros Id. unfold logs. destruct (level s <? v); [auto|]. cbn. unfold upd. destruct (Nat.eqb_spec t0 t) as [->|]; [|auto]. intros H. injection H as <-. auto.
Qed.

Lemma own1 : ownText (str "Trace: accept" ++ newline). Proof. left. auto. Qed.
Lemma own2 : ownText (str "Trace: accept returns -1" ++ newline). Proof. right; left. auto. Qed.
Lemma own3 : ownText (str "Trace: fdopen failed" ++ newline). Proof. right; right; left. auto. Qed.
Lemma own4 : ownText (str "SIGPIPE TEST" ++ newline). Proof. right; right; right; left. auto. Qed.
Lemma own5 : ownText (str "Trace: closed" ++ newline). Proof. right; right; right; right; left. auto. Qed.
Lemma own6 cd : ownText (str "Trace; Accepted incoming connection. cd=" ++ cdText cd ++ newline). Proof. do 5 right. left. eauto. Qed.
Lemma own7 m : ownText (str "Trace; active mask=0x" ++ hex8 m ++ newline). Proof. do 6 right. left. eauto. Qed.
Lemma own8 m : ownText (str "Trace active, mask=0x" ++ hex8 m ++ newline). Proof. do 7 right. eauto. Qed.

Lemma serve_text s d ok s1 : serve s d ok = Some s1 ->
  got s1 = got s /\ nconn s1 = nconn s /\ gone s1 = gone s /\ full s1 = full s /\
  (forall t l, t <> 0%nat -> text (ems s1 t) = Some l -> text (ems s t) = Some l) /\ (forall l, text (ems s1 0%nat) = Some l -> ownText l).
Proof.
  unfold serve. destruct (ems s 0%nat) eqn:Id; try discriminate.
  assert (LG : forall v l p, ownText l -> let s1 := wPc p (logs s 0 v l) in got s1 = got s /\ nconn s1 = nconn s /\ gone s1 = gone s /\ full s1 = full s /\
    (forall t x, t <> 0%nat -> text (ems s1 t) = Some x -> text (ems s t) = Some x) /\ (forall x, text (ems s1 0%nat) = Some x -> ownText x)).
  { intros v l p O. pose proof (logs_same s 0 v l) as X. cbv zeta in X. decompose [and] X. cbn. repeat split; auto.
    - intros t x N. unfold logs. destruct (level s <? v); [auto|]. cbn. rewrite upd_other; auto.
    - intros x Y. apply logs_text in Y; [|auto]. destruct Y as [Y| ->]; [rewrite Id in Y; discriminate|auto]. }
  assert (SM : forall s2, got s2 = got s -> nconn s2 = nconn s -> gone s2 = gone s -> full s2 = full s -> ems s2 = ems s ->
    got s2 = got s /\ nconn s2 = nconn s /\ gone s2 = gone s /\ full s2 = full s /\
    (forall t l, t <> 0%nat -> text (ems s2 t) = Some l -> text (ems s t) = Some l) /\ (forall l, text (ems s2 0%nat) = Some l -> ownText l)).
  { intros s2 A B C D E. rewrite E, Id. repeat split; auto. discriminate. }
  assert (WE : forall p l, ownText l -> let s1 := wPc p (wEm 0 (Want l) s) in got s1 = got s /\ nconn s1 = nconn s /\ gone s1 = gone s /\ full s1 = full s /\
    (forall t x, t <> 0%nat -> text (ems s1 t) = Some x -> text (ems s t) = Some x) /\ (forall x, text (ems s1 0%nat) = Some x -> ownText x)).
  { intros p l O. cbn. repeat split; auto.
    - intros t x N. rewrite upd_other; auto.
    - intros x X. injection X as <-. auto. }
  destruct (pc s) as [ | |cd|cd|cd|cd|cd|cd|cd|cd|cd|cd|cd|cd|cd|cd|cd|cd|cd|cd|cd| | | ] eqn:P; intros E.
  - injection E as <-. apply LG, own1.
  - destruct ok.
    + destruct (tq s); [discriminate|]. destruct (lowest s d); [|discriminate]. injection E as <-. apply SM; reflexivity.
    + injection E as <-. apply SM; reflexivity.
  - injection E as <-. apply LG, own6.
  - destruct cd; injection E as <-; [apply SM; reflexivity|apply LG, own2].
  - destruct (lock s); [discriminate|]. injection E as <-. apply SM; reflexivity.
  - destruct ok; injection E as <-; apply SM; reflexivity.
  - injection E as <-. apply SM; reflexivity.
  - injection E as <-. apply LG, own3.
  - injection E as <-. apply SM; reflexivity.
  - injection E as <-. destruct (tf s); [| |destruct (files s f)]; apply SM; reflexivity.
  - injection E as <-. apply SM; reflexivity.
  - injection E as <-. apply LG, own7.
  - injection E as <-. apply WE, own8.
  - injection E as <-. apply SM; reflexivity.
  - assert (E2 : Some (wPc (S128 cd) s) = Some s1).
    { destruct (fds s cd) as [[c|n|]|]; auto. destruct (gone s c || sent s c); [auto|discriminate]. }
    injection E2 as <-. apply SM; reflexivity.
  - injection E as <-. apply WE, own4.
  - injection E as <-. apply SM; reflexivity.
  - destruct (lock s); [discriminate|]. injection E as <-. apply SM; reflexivity.
  - injection E as <-. destruct (tf s); [| |destruct (files s f)]; apply SM; reflexivity.
  - injection E as <-. apply SM; reflexivity.
  - injection E as <-. apply SM; reflexivity.
  - injection E as <-. apply SM; reflexivity.
  - injection E as <-. apply SM; reflexivity.
  - injection E as <-. apply LG, own5.
Qed.

Lemma sess_pcd p d : inSess p = Some d -> pcd p = Some d.
Proof. destruct p; cbn; intros H; auto; discriminate. Qed.

Lemma step_I3 es s e s1 : I1 s -> I2 (connects es) s -> I3 es s -> step s e = Some s1 -> I3 (es ++ [e]) s1.
Proof.
  intros J I X E. pose proof (step_runs s e s1 E) as Ru. unfold step in E. rewrite Ru in E.
  assert (LAST : forall e0 : event, In e0 (es ++ [e0])) by (intros; apply in_or_app; right; left; auto).
  assert (SM : forall e0 s2, got s2 = got s -> ems s2 = ems s -> nconn s = nconn s2 \/ nconn s2 = S (nconn s) -> I3 (es ++ [e0]) s2).
  { intros e0 s2 A B C. apply I3_mono with s; auto; rewrite ?A, ?B; auto. }
  destruct e; try (injection E as <-; apply SM; auto; fail).
  - destruct t; [discriminate|]. destruct (ems s (S t)) eqn:Em; try discriminate. injection E as <-.
    pose proof (traces_same s (S t) m l) as Y. cbv zeta in Y. decompose [and] Y. apply I3_mono with s; auto.
    + intros t0 x. unfold traces. destruct (Z.land (mask s) m =? 0); [auto|]. cbn [wEm ems]. unfold upd. destruct (Nat.eqb_spec t0 (S t)) as [->|]; [|auto].
      intros Z. injection Z as <-. right; left. left. exists (S t), m. auto.
    + replace (got (traces s (S t) m l)) with (got s) by auto. auto.
  - destruct t; [discriminate|]. destruct (ems s (S t)) eqn:Em; try discriminate. injection E as <-.
    pose proof (logs_same s (S t) v l) as Y. cbv zeta in Y. decompose [and] Y. apply I3_mono with s; auto.
    + intros t0 x Z. apply logs_text in Z; [|auto]. destruct Z as [Z| ->]; [auto|]. right; left. right. exists (S t), v. auto.
    + replace (got (logs s (S t) v l)) with (got s) by auto. auto.
  - pose proof (emit_same s t s1 J E) as Y. decompose [and] Y. apply I3_mono with s; auto.
    + intros t0 l Z. left. apply (emit_text s t s1 J E). auto.
    + intros c l Z. destruct (emit_got s t s1 J E) as [G|(d & c0 & x & A1 & A2 & A3 & A4 & A5)]; [rewrite G in Z; auto|].
      rewrite A5 in Z. unfold upd in Z. destruct (Nat.eqb_spec c c0) as [->|]; [|auto]. apply in_app_or in Z. destruct Z as [Z|[<-|[]]]; [auto|]. right.
      destruct (f_pc _ _ I d (sess_pcd _ _ A2)) as (c1 & B1 & B2). assert (c1 = c0) by congruence. subst c1.
      split; [apply (f_conn _ _ I d); auto|]. split.
      * intros _. destruct (x_em es s X t x) as [T|T]; [rewrite A1; reflexivity| |]; [left; apply traced_app; auto|auto].
      * unfold isFlow. congruence.
  - pose proof (serve_text s d ok s1 E) as (A & B & _ & _ & C & D). apply I3_mono with s; auto.
    + intros t l Z. destruct t as [|t]; [right; right; apply D; auto|left; apply C; auto].
    + rewrite A. auto.
  - destruct (flow s); [|discriminate]. destruct (fq s); [discriminate|]. destruct (lowest s d); [|discriminate]. injection E as <-. apply SM; auto.
  - destruct (flow s) as [|cd out] eqn:Fl; [discriminate|]. pose proof (write_same _ _ _ _ E) as W. decompose [and] W. apply I3_mono with s; auto.
    + intros t x. replace (ems s1) with (ems s) by auto. auto.
    + intros c x Z. destruct (write_got _ _ _ _ E) as [G|(c0 & A & B & C)]; [rewrite G in Z; auto|]. rewrite C in Z. unfold upd in Z.
      destruct (Nat.eqb_spec c c0) as [->|]; [|auto]. apply in_app_or in Z. destruct Z as [Z|[<-|[]]]; [auto|]. right.
      destruct (f_flow _ _ I cd out Fl) as (c1 & B1 & B2 & _). assert (c1 = c0) by congruence. subst c1.
      split; [apply (f_conn _ _ I cd); auto|]. split; [unfold isTrace; congruence|]. intros _. left. auto.
  - destruct (flow s) as [|cd [x|]]; try discriminate. destruct (lowest s d); [|discriminate]. injection E as <-. apply SM; auto.
  - destruct (flow s) as [|cd [d|]] eqn:Fl; try discriminate. pose proof (write_same _ _ _ _ E) as W. decompose [and] W. apply I3_mono with s; auto.
    + intros t x. replace (ems s1) with (ems s) by auto. auto.
    + intros c x Z. destruct (write_got _ _ _ _ E) as [G|(c0 & A & B & C)]; [rewrite G in Z; auto|]. rewrite C in Z. unfold upd in Z.
      destruct (Nat.eqb_spec c c0) as [->|]; [|auto]. apply in_app_or in Z. destruct Z as [Z|[<-|[]]]; [auto|]. right.
      destruct (f_flow _ _ I cd _ Fl) as (c1 & B1 & B2 & B3). destruct (B3 d eq_refl) as [B4 _]. assert (c1 = c0) by congruence. subst c1.
      split; [apply (f_conn _ _ I d); auto|]. split; [unfold isTrace; congruence|]. intros _. right. auto.
  - destruct (flow s) as [|cd out]; [discriminate|]. injection E as <-. destruct out; apply SM; auto.
  - destruct (lowest s d); [|discriminate]. injection E as <-. apply SM; auto.
  - destruct (existsb _ _); [|discriminate]. destruct (fds s d); injection E as <-; apply SM; auto.
  - injection E as <-. destruct trace; apply SM; auto.
  - destruct (Nat.ltb _ _); [|discriminate]. injection E as <-. apply SM; auto.
  - destruct (_ && _); [|discriminate]. injection E as <-. apply SM; auto.
  - destruct (Nat.ltb _ _); [|discriminate]. injection E as <-. apply SM; auto.
  - destruct (Nat.ltb _ _); [|discriminate]. injection E as <-. apply SM; auto.
Qed.

Lemma reached_I3 es s : reachedBy clean es s -> I1 s /\ I2 (connects es) s /\ I3 es s.
Proof.
  revert es s. apply reached_ind.
  - intros. split; [apply start_I1|]. split; [apply start_I2|]. constructor; cbn; [discriminate|contradiction].
  - intros es s e s1 (A & B & X) C E. split; [apply step_I1 with s e; auto|]. split; [|apply step_I3 with s; auto].
    rewrite connects_app. apply step_I2 with s; auto.
Qed.

(** Clients get what is meant for them *)
Lemma who_gets es s c l : reachedBy clean es s -> In l (got s c) ->
  (isTrace es c /\ (traced es l \/ ownText l)) \/ (isFlow es c /\ replied es l).
Proof.
  intros R H. destruct (reached_I3 es s R) as (_ & I & X). destruct (x_got es s X c l H) as (L & T & F). rewrite <- (f_n _ _ I) in L.
  apply nth_error_Some in L. unfold isTrace, isFlow in *. destruct (nth_error (connects es) c) as [[|]|] eqn:K; [left; auto|right; auto|congruence].
Qed.

(** A text goes to the client of the session only, at its end *)
Lemma only_session es s t s1 c : reached es s -> step s (EEmit t) = Some s1 -> got s1 c <> got s c ->
  session s c /\ exists l, got s1 c = got s c ++ [l].
Proof.
  intros R E N. pose proof (reached_I1 es s R) as I. pose proof (step_runs _ _ _ E) as Ru. unfold step in E. rewrite Ru in E.
  destruct (emit_got s t s1 I E) as [G|(d & c0 & l & A1 & A2 & A3 & A4 & A5)]; [congruence|].
  rewrite A5 in N |- *. unfold upd in *. destruct (Nat.eqb_spec c c0) as [->|]; [|congruence]. split; [|eauto].
  exists d. split; [auto|]. destruct (pc s) eqn:P; cbn in A2; try discriminate; injection A2 as ->; auto 10.
  exfalso. assert (Lk : lock s = Some t) by (apply (i_busy s I); rewrite A1; reflexivity).
  assert (Cr : crit (pc s) = true) by (rewrite P; reflexivity). destruct (i_crit s I Cr) as [L0 Id]. rewrite Lk in L0. injection L0 as ->. congruence.
Qed.
