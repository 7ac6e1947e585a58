(** Proofs for C81. *)
From Coq Require Import String.
From Verif Require Import Base Lists Cstr_Model Rangeset_Model Util_Model Util_Spec Util_Proofs Opt_Model Opt_Spec Opt_Proofs Shm_Model Log_Model Match_Spec Match_Proofs Ctl_Model Ctl_Spec.

Lemma pupd_same f k p : pupd f k p k = p.
Proof. unfold pupd. rewrite Z.eqb_refl. reflexivity. Qed.
Lemma pupd_other f k p i : i <> k -> pupd f k p i = f i.
Proof. unfold pupd. intro H. destruct (Z.eqb_spec i k); [contradiction|reflexivity]. Qed.

(** ** Registers along an execution *)
Lemma level_app d t1 t2 : level_after d (t1 ++ t2) = level_after (level_after d t1) t2.
Proof. apply fold_left_app. Qed.
Lemma mask_app d t1 t2 : mask_after d (t1 ++ t2) = mask_after (mask_after d t1) t2.
Proof. apply fold_left_app. Qed.

(** What a single observation has to be *)
Definition obs_ok (l m : Z) (ob : list cobs) : Prop :=
  match ob with
  | [] => True
  | [SeesLevel _ v] => v = l
  | [SeesMask _ v] => v = m
  | [SetsLevel _ _] | [SetsMask _ _] | [Prints _ _] | [Ends _ _] | [Prints _ _; Ends _ _] => True
  | _ => False
  end.
Lemma split_tail A (tr ob t1 t2 : list A) x : tr ++ ob = t1 ++ x :: t2 ->
  (exists u, tr = t1 ++ x :: u /\ t2 = u ++ ob) \/ (exists u, t1 = tr ++ u /\ ob = u ++ x :: t2).
Proof.
  revert t1. induction tr as [|a tr IH]; intros t1 H; cbn [app] in H.
  - right. exists t1. auto.
  - destruct t1 as [|b t1]; cbn [app] in H; injection H as -> H.
    + left. exists tr. auto.
    + destruct (IH t1 H) as [(u & -> & ->)|(u & -> & ->)]; [left|right]; exists u; auto.
Qed.
Lemma registers_app l m tr ob : registers l m tr -> obs_ok (level_after l tr) (mask_after m tr) ob -> registers l m (tr ++ ob).
Proof.
  intros (C & L & M) O. split; [|split].
  - intros k H. apply in_app_or in H. destruct H as [H|H]; [exact (C k H)|].
    destruct ob as [|o [|o' [|o'' r]]]; cbn [obs_ok] in O; [destruct H| | |].
    + destruct H as [->|[]]. contradiction.
    + destruct o; try contradiction. destruct o'; try contradiction. destruct H as [H|[H|[]]]; discriminate.
    + destruct o; try contradiction. destruct o'; contradiction.
  - intros t1 k v t2 E. destruct (split_tail _ _ _ _ _ _ E) as [(u & -> & ->)|(u & -> & ->)]; [exact (L _ _ _ _ eq_refl)|].
    destruct u as [|o [|o' r]]; cbn [app obs_ok] in O.
    + destruct t2; [rewrite app_nil_r; exact O|contradiction].
    + destruct o; try contradiction.
    + destruct o; try contradiction. destruct o'; try contradiction. destruct r; contradiction.
  - intros t1 k v t2 E. destruct (split_tail _ _ _ _ _ _ E) as [(u & -> & ->)|(u & -> & ->)]; [exact (M _ _ _ _ eq_refl)|].
    destruct u as [|o [|o' r]]; cbn [app obs_ok] in O.
    + destruct t2; [rewrite app_nil_r; exact O|contradiction].
    + destruct o; try contradiction.
    + destruct o; try contradiction. destruct o'; try contradiction. destruct r; contradiction.
Qed.
Lemma registers_nil l m : registers l m [].
Proof. split; [|split]; [intros k []|intros t1 k v t2 H; destruct t1; discriminate|intros t1 k v t2 H; destruct t1; discriminate]. Qed.

(** ** The object is there and nobody makes it *)
Definition there (w : cworld) (l m : Z) : Prop := c_obj w = Some (Some (l, m)) /\ forall i, ~ making w i.
Ltac procs i k := destruct (Z.eq_dec i k) as [->|?]; [rewrite ?pupd_same in *|rewrite ?(pupd_other _ k _ i) in * by assumption].
Lemma mapped_not j : match mapped j with Open1 _ | Stat1 _ | Create _ | Write _ | Open2 _ | Stat2 _ => False | _ => True end.
Proof. destruct j as [|[n|]|m]; exact Logic.I. Qed.
Lemma begin_some w k r w' ob : begin w k r = Some (w', ob) -> c_procs w k = Off /\
  exists p, w' = at_state w k p /\ (p = Gone \/ exists j, p = Open1 j) /\ (ob = [] \/ (exists t, ob = [Prints k t]) \/ exists s, ob = [Ends k s]).
Proof.
  unfold begin. intro H. destruct (c_procs w k); try discriminate. split; [reflexivity|]. destruct r as [[s|[t j]]| | |]; try discriminate; injection H as <- <-.
  - exists Gone. split; [reflexivity|]. split; [auto|]. right. right. eauto.
  - exists (Open1 j). split; [reflexivity|]. split; [eauto|]. destruct t; eauto.
Qed.
Lemma there_step w l m lb w' ob : there w l m -> cstep w lb = Some (w', ob) ->
  obs_ok l m ob /\ there w' (level_after l ob) (mask_after m ob).
Proof.
  intros (Eo & Mk) H.
  assert (K : forall k p, (match p with Create _ | Write _ => False | _ => True end) -> there (at_state w k p) l m).
  { intros k p Hp. split; [exact Eo|]. intros i Hi. unfold making in Hi. cbn [at_state c_procs] in Hi. procs i k; [destruct p; contradiction|exact (Mk i Hi)]. }
  assert (B : forall k r, begin w k r = Some (w', ob) -> obs_ok l m ob /\ there w' (level_after l ob) (mask_after m ob)).
  { intros k r Hb. destruct (begin_some _ _ _ _ _ Hb) as (_ & p & -> & Hp & Hob).
    assert (Kp : there (at_state w k p) l m) by (apply K; destruct Hp as [->|(j & ->)]; exact Logic.I).
    destruct Hob as [->|[(t & ->)|(s & ->)]]; split; try exact Logic.I; exact Kp. }
  assert (S : forall k c p ob', (match p with Create _ | Write _ => False | _ => True end) -> c = (level_after l ob', mask_after m ob') ->
     there (mkC (Some (Some c)) (pupd (c_procs w) k p)) (level_after l ob') (mask_after m ob')).
  { intros k c p ob' Hp ->. split; [reflexivity|]. intros i Hi. unfold making in Hi. cbn [c_procs] in Hi. procs i k; [destruct p; contradiction|exact (Mk i Hi)]. }
  destruct lb as [k|k ws|k ws|k|k|k t|k|k|k|k|k]; cbn [cstep] in H.
  - exact (B _ _ H).
  - exact (B _ _ H).
  - exact (B _ _ H).
  - unfold pstep, access in H. rewrite Eo in H. assert (Nm := Mk k). unfold making in Nm.
    destruct (c_procs w k) as [|j|j|j|j|j|j|j| | | | |]; try discriminate; try contradiction (Nm Logic.I).
    + injection H as <- <-. split; [exact Logic.I|]. apply K. exact Logic.I.
    + injection H as <- <-. split; [exact Logic.I|]. apply K. pose proof (mapped_not j). destruct (mapped j); auto.
    + injection H as <- <-. split; [exact Logic.I|]. apply K. exact Logic.I.
    + injection H as <- <-. split; [exact Logic.I|]. apply K. pose proof (mapped_not j). destruct (mapped j); auto.
    + destruct j as [|[n|]|n]; try discriminate; injection H as <- <-; (split; [exact Logic.I|]).
      * apply (S k (n, m) Tell [SetsLevel k n]); [exact Logic.I|reflexivity].
      * apply (S k (l, n) Connect [SetsMask k n]); [exact Logic.I|reflexivity].
    + injection H as <- <-. split; [exact Logic.I|]. apply K. exact Logic.I.
    + injection H as <- <-. split; [exact Logic.I|]. apply K. exact Logic.I.
  - destruct (c_procs w k); try discriminate; injection H as <- <-; (split; [exact Logic.I|apply K; exact Logic.I]).
  - destruct (c_procs w k); try discriminate; injection H as <- <-. split; [exact Logic.I|split; assumption].
  - destruct (c_procs w k); try discriminate; injection H as <- <-. split; [exact Logic.I|apply K; exact Logic.I].
  - destruct (c_procs w k); try discriminate; injection H as <- <-; (split; [exact Logic.I|apply K; exact Logic.I]).
  - destruct (c_procs w k); try discriminate. unfold access in H. rewrite Eo in H. injection H as <- <-. split; [reflexivity|split; assumption].
  - destruct (c_procs w k); try discriminate. unfold access in H. rewrite Eo in H. injection H as <- <-. split; [reflexivity|split; assumption].
  - destruct (c_procs w k); try discriminate. unfold access in H. rewrite Eo in H. injection H as <- <-. split; [exact Logic.I|].
    split; [reflexivity|exact Mk].
Qed.
Lemma there_ok ok l m w0 tr w : c_obj w0 = Some (Some (l, m)) -> (forall i, ~ making w0 i) -> cexecBy ok w0 tr w ->
  registers l m tr /\ there w (level_after l tr) (mask_after m tr).
Proof.
  intros H1 H2 E. induction E as [w|w tr w1 lb w2 ob E IH _ Hs]; [split; [apply registers_nil|split; assumption]|].
  destruct (IH H1 H2) as (R & T). destruct (there_step _ _ _ _ _ _ T Hs) as (O & T'). split; [apply registers_app; assumption|].
  rewrite level_app, mask_app. exact T'.
Qed.

(** ** One start at a time *)
Definition uses (p : pstate) : Prop := match p with Off | Open1 _ | Create _ | Gone => False | Stat1 _ | Write _ => False | _ => True end.
Inductive phase (w : cworld) (l m : Z) : Prop :=
| ph_none : l = 5 -> m = 0 -> (c_obj w = None \/ c_obj w = Some None) -> (forall i, ~ uses (c_procs w i)) ->
    (forall i j, starting w i -> starting w j -> i = j) -> phase w l m
| ph_there : there w l m -> phase w l m.
Lemma using_not p : ~ uses p -> match p with Off | Open1 _ | Create _ | Gone | Stat1 _ | Write _ => True | _ => False end.
Proof. destruct p; cbn [uses]; tauto. Qed.
Lemma phase_step w l m lb w' ob : phase w l m -> one_at_a_time w lb -> cstep w lb = Some (w', ob) ->
  obs_ok l m ob /\ phase w' (level_after l ob) (mask_after m ob).
Proof.
  intros [-> -> Eo Nu U|T] Pol H; [|destruct (there_step _ _ _ _ _ _ T H); split; [assumption|apply ph_there; assumption]].
  assert (K : forall k p, ~ uses p -> (forall i j, starting (at_state w k p) i -> starting (at_state w k p) j -> i = j) -> phase (at_state w k p) 5 0).
  { intros k p Hp Hu. apply ph_none; auto. intro i. cbn [at_state c_procs]. procs i k; [exact Hp|apply Nu]. }
  assert (Kk : forall k p, (match p with Open1 _ | Stat1 _ | Create _ | Write _ | Open2 _ | Stat2 _ => starting w k | _ => True end) ->
     forall o, forall i j, starting (mkC o (pupd (c_procs w) k p)) i -> starting (mkC o (pupd (c_procs w) k p)) j -> i = j).
  { intros k p Hp o i j Hi Hj. unfold starting in Hi, Hj. cbn [c_procs] in Hi, Hj.
    assert (Hpk : (match p with Open1 _ | Stat1 _ | Create _ | Write _ | Open2 _ | Stat2 _ => True | _ => False end) -> starting w k) by (destruct p; tauto).
    procs i k; procs j k; auto. }
  assert (B : forall k r, (forall i, ~ starting w i) -> begin w k r = Some (w', ob) -> obs_ok 5 0 ob /\ phase w' (level_after 5 ob) (mask_after 0 ob)).
  { intros k r Hn Hb. destruct (begin_some _ _ _ _ _ Hb) as (Ek & p & -> & Hp & Hob).
    assert (Kp : phase (at_state w k p) 5 0).
    { apply K; [destruct Hp as [->|(j & ->)]; cbn [uses]; tauto|]. intros i j Hi Hj.
      assert (Hx : forall x, starting (at_state w k p) x -> x = k).
      { intros x Hx. destruct (Z.eq_dec x k) as [|Hne]; [assumption|]. unfold starting in Hx. cbn [at_state c_procs] in Hx. rewrite pupd_other in Hx by assumption. destruct (Hn x Hx). }
      rewrite (Hx i Hi), (Hx j Hj). reflexivity. }
    destruct Hob as [->|[(t & ->)|(s & ->)]]; split; try exact Logic.I; exact Kp. }
  destruct lb as [k|k ws|k ws|k|k|k t|k|k|k|k|k]; cbn [cstep one_at_a_time] in H, Pol.
  - exact (B _ _ Pol H).
  - exact (B _ _ Pol H).
  - exact (B _ _ Pol H).
  - unfold pstep in H. pose proof (using_not _ (Nu k)) as Hk.
    assert (Sk : forall x, c_procs w k = x -> (match x with Open1 _ | Stat1 _ | Create _ | Write _ | Open2 _ | Stat2 _ => True | _ => False end) -> starting w k) by (intros x <-; auto).
    destruct (c_procs w k) as [|j|j|j|j|j|j|j| | | | |] eqn:Ek; try discriminate; try contradiction.
    + injection H as <- <-. split; [exact Logic.I|]. specialize (Sk _ eq_refl Logic.I). apply K.
      * destruct Eo as [->| ->]; cbn [uses]; tauto.
      * apply Kk. destruct Eo as [->| ->]; exact Sk.
    + injection H as <- <-. split; [exact Logic.I|]. specialize (Sk _ eq_refl Logic.I). destruct Eo as [->| ->]; (apply K; [cbn [uses]; tauto|apply Kk; exact Sk]).
    + injection H as <- <-. split; [exact Logic.I|]. specialize (Sk _ eq_refl Logic.I). apply ph_none; auto.
      * intro i. cbn [c_procs]. procs i k; [cbn [uses]; tauto|apply Nu].
      * apply Kk. exact Sk.
    + injection H as <- <-. split; [exact Logic.I|]. specialize (Sk _ eq_refl Logic.I). apply ph_there. split; [reflexivity|].
      intros i Hi. unfold making in Hi. cbn [c_procs] in Hi. destruct (Z.eq_dec i k) as [->|Hne]; [rewrite pupd_same in Hi; contradiction|]. rewrite pupd_other in Hi by assumption.
      apply Hne. apply U; [|exact Sk]. unfold starting. destruct (c_procs w i); tauto.
  - pose proof (using_not _ (Nu k)) as Hk. destruct (c_procs w k) eqn:Ek; try discriminate; try contradiction. injection H as <- <-.
    split; [exact Logic.I|]. apply K; [cbn [uses]; tauto|apply Kk; exact Logic.I].
  - pose proof (using_not _ (Nu k)) as Hk. destruct (c_procs w k); try discriminate; contradiction.
  - pose proof (using_not _ (Nu k)) as Hk. destruct (c_procs w k); try discriminate; contradiction.
  - destruct (c_procs w k); try discriminate; injection H as <- <-; (split; [exact Logic.I|]; apply K; [cbn [uses]; tauto|apply Kk; exact Logic.I]).
  - pose proof (using_not _ (Nu k)) as Hk. destruct (c_procs w k); try discriminate; contradiction.
  - pose proof (using_not _ (Nu k)) as Hk. destruct (c_procs w k); try discriminate; contradiction.
  - pose proof (using_not _ (Nu k)) as Hk. destruct (c_procs w k); try discriminate; contradiction.
Qed.
Lemma one_ok tr w : cexecBy one_at_a_time cstart tr w -> registers 5 0 tr /\ phase w (level_after 5 tr) (mask_after 0 tr).
Proof.
  intro E. remember cstart as w0 eqn:E0. induction E as [w|w tr w1 lb w2 ob E IH P Hs].
  - subst w. split; [apply registers_nil|]. apply ph_none; try reflexivity; [left; reflexivity|intros i H; exact H|intros i j H; destruct H].
  - destruct (IH E0) as (R & T). destruct (phase_step _ _ _ _ _ _ T P Hs) as (O & T'). split; [apply registers_app; assumption|].
    rewrite level_app, mask_app. exact T'.
Qed.
