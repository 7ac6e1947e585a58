(** The invariants of Setup_Proofs hold in all executions (C84). *)
From Coq Require Import String.
From Verif Require Import Base Lists Cstr_Model Rangeset_Spec Opt_Model Start_Spec Start_Proofs Setup_Model Setup_Spec Setup_Proofs.

(** ** Who runs *)
Lemma runs_end os p i s ql mt : runs (os ++ [Ended p]) i s ql mt <-> i <> p /\ runs os i s ql mt.
Proof.
  split.
  - intros (o1 & o2 & E & F). destruct (snoc_split _ _ _ _ _ _ E) as [(o3 & -> & ->)|(b1 & _ & B)].
    + rewrite in_app_iff in F. split; [intros ->; apply F; right; left; reflexivity|]. exists o1, o3. tauto.
    + destruct b1 as [|x [|y b1]]; discriminate.
  - intros (N & R). apply runs_app; auto. intros [X|[]]. congruence.
Qed.
Lemma runs_start os p s ql mt i s' ql' mt' :
  runs (os ++ [Started p s ql mt]) i s' ql' mt' <-> runs os i s' ql' mt' \/ (i = p /\ s' = s /\ ql' = ql /\ mt' = mt).
Proof.
  split.
  - intros (o1 & o2 & E & F). destruct (snoc_split _ _ _ _ _ _ E) as [(o3 & -> & ->)|(b1 & -> & B)].
    + left. exists o1, o3. rewrite in_app_iff in F. tauto.
    + right. destruct b1 as [|x [|y b1]]; try discriminate. injection B as <- <- <- <- <-. auto.
  - intros [R|(-> & -> & -> & ->)].
    + apply runs_app; auto. intros [X|[]]. discriminate.
    + exists os, []. auto.
Qed.
Lemma runs_quiet os o i s ql mt : (forall p a b c, o <> Started p a b c) -> (forall p, o <> Ended p) ->
  runs (os ++ [o]) i s ql mt <-> runs os i s ql mt.
Proof.
  intros A B. split.
  - apply runs_back. intros a b c [X|[]]. apply (A _ _ _ _ X).
  - apply runs_app. intros [X|[]]. apply (B _ X).
Qed.

(** ** The world *)
Lemma winv_obs os ob w : winv os w -> (forall p s ql mt, runs (os ++ ob) p s ql mt <-> runs os p s ql mt) ->
  (forall q k id o, w_kq w q = Some k -> In id (k_wait k) -> In o ob -> ~ verdict_on id o) -> winv (os ++ ob) w.
Proof.
  intros I R V. constructor; try apply I.
  - intros p ql mt P. destruct (v_proc os w I p ql mt P) as (M & s & Rs & Q & L). split; auto. exists s. rewrite R. auto.
  - intros p P. destruct (v_none os w I p P) as (N & L). split; auto. intros s ql mt. rewrite R. auto.
  - intros q k K. destruct (v_own os w I q k K) as (Q & th & ql & mt & P & T & S & F). split; auto. exists th, ql, mt. split; auto. split; auto. split; auto.
    assert (G : forall id, In id (k_wait k) -> forall o, In o ob -> ~ verdict_on id o) by eauto. clear - F G.
    induction F as [|m id ms ids (pk & h & E & H & A & B) F IH]; constructor.
    + exists pk, h. split; auto. split; auto. split; [apply in_app_iff; auto|]. intros o O. apply in_app_iff in O. destruct O as [O|O]; auto. apply G; auto. left. reflexivity.
    + apply IH. intros. apply G; auto. right. auto.
Qed.

Lemma winv_ends os w p : winv os w -> winv (os ++ [Ended p]) (ends w p).
Proof.
  intros I. assert (KQ : forall q k, w_kq (ends w p) q = Some k -> w_kq w q = Some k /\ k_proc k <> p).
  { intros q k. cbn [ends w_kq]. destruct (w_kq w q) as [k'|]; [|discriminate]. destruct (Z.eqb_spec (k_proc k') p); [discriminate|]. intros E. injection E as <-. auto. }
  constructor.
  - intros i ql mt. cbn [ends w_proc w_thr]. unfold updZ. destruct (Z.eqb_spec i p); [discriminate|]. intros Pi.
    destruct (v_proc os w I i ql mt Pi) as (M & s & R & Q & L). split; auto. exists s. rewrite runs_end. auto.
  - intros i. cbn [ends w_proc w_thr]. unfold updZ. destruct (Z.eqb_spec i p).
    + subst. intros _. split; auto. intros s ql mt. rewrite runs_end. tauto.
    + intros Pi. destruct (v_none os w I i Pi) as (N & L). split; auto. intros s ql mt. rewrite runs_end. intros (_ & R). apply (N _ _ _ R).
  - intros i j th ql mt. cbn [ends w_proc w_thr]. unfold updZ. destruct (Z.eqb_spec i p); [discriminate|]. apply (v_todo os w I).
  - intros q k K. apply KQ in K. destruct K as (K & N). destruct (v_own os w I q k K) as (Q & th & ql & mt & P & T & S & F). split; auto. exists th, ql, mt.
    cbn [ends w_proc w_thr]. unfold updZ. destruct (Z.eqb_spec (k_proc k) p); [contradiction|]. split; auto. split; auto. split; auto.
    clear - F. induction F as [|m id ms ids (pk & h & E & H & A & B) F IH]; constructor; auto.
    exists pk, h. split; auto. split; auto. split; [apply in_app_iff; auto|]. intros o O. apply in_app_iff in O. destruct O as [O|[<-|[]]]; auto.
  - intros i j th. cbn [ends w_thr]. destruct (Z.eqb_spec i p); [discriminate|]. intros T NO. apply (v_free os w I i j th T).
    intros (q & k & K & A & B). apply NO. exists q, k. split; auto. cbn [ends w_kq]. rewrite K. destruct (Z.eqb_spec (k_proc k) p); [congruence|reflexivity].
  - intros q k id K H. apply KQ in K. destruct K as (K & N). destruct (v_ids os w I q k id K H) as (A & B). split; auto.
    intros q' k' K' H'. apply KQ in K'. destruct K' as (K' & _). eauto.
  - intros q k K. apply KQ in K. destruct K as (K & N). eapply (v_nodup os w I); eauto.
Qed.

Definition started (w : kworld) (p ql mt : Z) (qs : list Z) : kworld :=
  mkKW (updZ (w_proc w) p (Some (ql, mt)))
       (fun i j => if i =? p then (if existsb (Z.eqb j) qs then Some (mkT (setup ql mt j) []) else None) else w_thr w i j)
       (w_kq w) (w_id w).
Lemma existsb_in j qs : existsb (Z.eqb j) qs = true <-> In j qs.
Proof.
  rewrite existsb_exists. split.
  - intros (x & I & E). apply Z.eqb_eq in E. subst. auto.
  - intros I. exists j. split; auto. apply Z.eqb_refl.
Qed.
Lemma winv_start os w p s ql mt qs : winv os w -> w_proc w p = None -> queues s = Ok qs -> (exists a b, queue_text s a b) -> 576 <= mt ->
  winv (os ++ [Started p s ql mt]) (started w p ql mt qs).
Proof.
  intros I P E (a & b & Q) M. destruct (listed_queues s a b Q) as (l & E' & _ & L). rewrite E in E'. injection E' as <-.
  destruct (v_none os w I p P) as (NR & NT).
  assert (OW : forall q k, w_kq w q = Some k -> k_proc k <> p). { intros q k K. destruct (v_own os w I q k K) as (_ & x & ql1 & mt1 & P1 & _). congruence. }
  constructor; unfold started; cbn [w_proc w_thr w_kq w_id].
  - intros i ql' mt'. unfold updZ. destruct (Z.eqb_spec i p).
    + subst i. intros X. injection X as <- <-. split; auto. exists s. split; [apply runs_start; auto|]. split; eauto.
      intros t. rewrite <- L. rewrite <- existsb_in. destruct (existsb (Z.eqb t) qs); split; congruence.
    + intros Pi. destruct (v_proc os w I i ql' mt' Pi) as (M' & s' & R & Q' & L'). split; auto. exists s'. rewrite runs_start. auto.
  - intros i. unfold updZ. destruct (Z.eqb_spec i p); [discriminate|]. intros Pi. destruct (v_none os w I i Pi) as (NR' & NT'). split; auto.
    intros s' ql' mt'. rewrite runs_start. intros [R|(-> & _)]; [apply (NR' _ _ _ R)|contradiction].
  - intros i j th ql' mt'. unfold updZ. destruct (Z.eqb_spec i p).
    + destruct (existsb (Z.eqb j) qs); [|discriminate]. intros X Y. injection X as <-. injection Y as <- <-. exists 0%nat. split; [lia|reflexivity].
    + apply (v_todo os w I).
  - intros q k K. assert (N := OW q k K). destruct (v_own os w I q k K) as (Q' & th & ql1 & mt1 & P1 & T1 & S1 & F). split; auto. exists th, ql1, mt1.
    unfold updZ. destruct (Z.eqb_spec (k_proc k) p); [contradiction|]. split; auto. split; auto. split; auto.
    clear - F. induction F as [|m id ms ids (pk & h & E & H & A & B) F IH]; constructor; auto.
    exists pk, h. split; auto. split; auto. split; [apply in_app_iff; auto|]. intros o O. apply in_app_iff in O. destruct O as [O|[<-|[]]]; auto.
  - intros i j th. destruct (Z.eqb_spec i p).
    + destruct (existsb (Z.eqb j) qs); [|discriminate]. intros X _. injection X as <-. left. cbn. split; [lia|reflexivity].
    + intros T NO. apply (v_free os w I i j th T). intros (q & k & K & A & B). apply NO. exists q, k. auto.
  - intros q k id. apply (v_ids os w I).
  - intros q k. apply (v_nodup os w I).
Qed.

(** A verdict *)
Lemma filter_head id ids : NoDup (id :: ids) -> filter (fun i => negb (i =? id)) (id :: ids) = ids.
Proof.
  intros N. inversion N as [|x y A B]; subst. cbn [filter]. rewrite Z.eqb_refl. cbn [negb]. clear N B. induction ids as [|z ids IH]; [reflexivity|].
  cbn [filter]. destruct (Z.eqb_spec z id); [destruct A; left; auto|]. cbn [negb]. rewrite IH; auto. intros X. apply A. right. auto.
Qed.
Lemma inbox_owner os w p t th m r : winv os w -> w_thr w p t = Some th -> t_todo th = [] -> t_inbox th = m :: r -> m <> Err ->
  exists k, w_kq w (number16 t) = Some k /\ k_proc k = p /\ k_thr k = t.
Proof.
  intros I T TD IB NE. destruct (owns_dec os w p t I) as [O|O]; [apply (owner_queue os w p t I O)|].
  destruct (v_free os w I p t th T O) as [(X & _)|(_ & x & X)]; [rewrite TD in X; cbn in X; lia|congruence].
Qed.
Lemma winv_verdict os w k th qlen mtu m r id ids q :
  winv os w -> w_kq w q = Some k -> w_thr w (k_proc k) (k_thr k) = Some th -> w_proc w (k_proc k) = Some (qlen, mtu) ->
  t_todo th = [] -> t_inbox th = m :: r -> k_wait k = id :: ids ->
  winv os (withQueue (withThread w (k_proc k) (k_thr k) (mkT [] r)) q (Some (mkK (k_proc k) (k_thr k) (k_range k) (k_gso k) (k_max k) ids))).
Proof.
  intros I K T P TD IB W. constructor; cbn [withThread withQueue w_proc w_thr w_kq w_id].
  - intros i ql mt Pi. destruct (v_proc os w I i ql mt Pi) as (M & s & R & Q & L). split; auto. exists s. split; auto. split; auto.
    intros j. rewrite L. unfold updT. destruct (Z.eqb_spec i (k_proc k)), (Z.eqb_spec j (k_thr k)); cbn [andb]; try tauto. subst. rewrite T. split; discriminate.
  - intros i Pi. destruct (v_none os w I i Pi) as (R & L). split; auto. intros j. rewrite updT_other; [auto|]. intros (-> & _). congruence.
  - intros i j x ql mt X Pi. unfold updT in X. destruct (Z.eqb_spec i (k_proc k)), (Z.eqb_spec j (k_thr k)); cbn [andb] in X; try (eapply (v_todo os w I); eauto; fail).
    injection X as <-. exists 5%nat. split; [lia|reflexivity].
  - intros q1 k1 K1. unfold updZ in K1. destruct (Z.eqb_spec q1 q).
    + injection K1 as <-. subst q1. cbn [k_proc k_thr]. destruct (v_own os w I q k K) as (Q & x & ql & mt & Pi & X & S1 & F). rewrite T in X. injection X as <-.
      rewrite P in Pi. injection Pi as <- <-. split; auto. exists (mkT [] r), qlen, mtu. split; auto. split; [apply updT_same|]. split.
      * unfold set_to in *. cbn [t_todo k_range k_wait k_max k_thr]. right. right. destruct S1 as [(S & _)|[(S & _)|S]]; try (rewrite TD in S; discriminate). tauto.
      * cbn [t_inbox k_wait]. rewrite IB, W in F. inversion F; auto.
    + destruct (v_own os w I q1 k1 K1) as (Q & x & ql & mt & Pi & X & S1). split; auto. exists x, ql, mt. split; auto. split; auto.
      rewrite updT_other; auto. intros (A & B). apply n. eapply owner_one; eauto.
  - intros i j x X O. unfold updT in X. destruct (Z.eqb_spec i (k_proc k)), (Z.eqb_spec j (k_thr k)); cbn [andb] in X.
    { subst. exfalso. apply O. exists q. eexists. cbn [withThread withQueue w_kq]. rewrite updZ_same. split; [reflexivity|auto]. }
    all: apply (v_free os w I i j x X); intros (q1 & k1 & K1 & O1 & O2); apply O; destruct (Z.eq_dec q1 q) as [->|D];
      [exists q; eexists; cbn [withThread withQueue w_kq]; rewrite updZ_same; rewrite K in K1; injection K1 as <-; split; [reflexivity|cbn [k_proc k_thr]; split; congruence]|
       exists q1, k1; cbn [withThread withQueue w_kq]; rewrite updZ_other by auto; auto].
  - assert (WW : forall q1 k1, updZ (w_kq w) q (Some (mkK (k_proc k) (k_thr k) (k_range k) (k_gso k) (k_max k) ids)) q1 = Some k1 ->
             exists k2, w_kq w q1 = Some k2 /\ forall i, In i (k_wait k1) -> In i (k_wait k2)).
    { intros q1 k1 K1. unfold updZ in K1. destruct (Z.eqb_spec q1 q); [injection K1 as <-; subst; exists k; split; auto; rewrite W; intros i; right; auto|exists k1; auto]. }
    intros q1 k1 i K1 H. destruct (WW q1 k1 K1) as (k2 & K2 & E2). apply E2 in H. destruct (v_ids os w I q1 k2 i K2 H) as (A & B). split; auto.
    intros q' k3 K3 H3. destruct (WW q' k3 K3) as (k4 & K4 & E4). apply E4 in H3. eauto.
  - intros q1 k1 K1. unfold updZ in K1. destruct (Z.eqb_spec q1 q); [injection K1 as <-; cbn [k_wait]; assert (N := v_nodup os w I q k K); rewrite W in N; inversion N; auto|].
    eapply (v_nodup os w I); eauto.
Qed.

(** A packet comes *)
Lemma winv_enqueue os w q k th mtu qlen h pk :
  winv os w -> w_kq w q = Some k -> w_thr w (k_proc k) (k_thr k) = Some th -> w_proc w (k_proc k) = Some (qlen, mtu) -> k_range k = Some (Z.min mtu 65531) ->
  0 <= h <= 2048 -> In (Queued q (w_id w) pk) os -> (forall o, In o os -> ~ verdict_on (w_id w) o) ->
  winv os (mkKW (w_proc w) (updT (w_thr w) (k_proc k) (k_thr k) (mkT (t_todo th) (t_inbox th ++ [Pkt q (w_id w) h (k_proto pk) (copied mtu pk)])))
                (updZ (w_kq w) q (Some (mkK (k_proc k) (k_thr k) (k_range k) (k_gso k) (k_max k) (k_wait k ++ [w_id w])))) (w_id w + 1)).
Proof.
  intros I K T P RG H QD NV. constructor; cbn [w_proc w_thr w_kq w_id].
  - intros i ql mt Pi. destruct (v_proc os w I i ql mt Pi) as (M & s & R & Q & L). split; auto. exists s. split; auto. split; auto.
    intros j. rewrite L. unfold updT. destruct (Z.eqb_spec i (k_proc k)), (Z.eqb_spec j (k_thr k)); cbn [andb]; try tauto. subst. rewrite T. split; discriminate.
  - intros i Pi. destruct (v_none os w I i Pi) as (R & L). split; auto. intros j. rewrite updT_other; [auto|]. intros (-> & _). congruence.
  - intros i j x ql mt X Pi. unfold updT in X. destruct (Z.eqb_spec i (k_proc k)), (Z.eqb_spec j (k_thr k)); cbn [andb] in X; try (eapply (v_todo os w I); eauto; fail).
    injection X as <-. subst. cbn [t_todo]. eapply (v_todo os w I); eauto.
  - intros q1 k1 K1. unfold updZ in K1. destruct (Z.eqb_spec q1 q).
    + injection K1 as <-. subst q1. cbn [k_proc k_thr]. destruct (v_own os w I q k K) as (Q & x & ql & mt & Pi & X & S1 & F). rewrite T in X. injection X as <-.
      rewrite P in Pi. injection Pi as <- <-. split; auto. eexists _, qlen, mtu. split; auto. split; [apply updT_same|]. split.
      * unfold set_to in *. cbn [t_todo k_range k_wait k_max k_thr]. destruct S1 as [(_ & S & _)|[S|S]]; [congruence|tauto|tauto].
      * cbn [t_inbox k_wait]. apply Forall2_app; auto. constructor; [|constructor]. exists pk, h. auto.
    + destruct (v_own os w I q1 k1 K1) as (Q & x & ql & mt & Pi & X & S1). split; auto. exists x, ql, mt. split; auto. split; auto.
      rewrite updT_other; auto. intros (A & B). apply n. eapply owner_one; eauto.
  - intros i j x X O. unfold updT in X. destruct (Z.eqb_spec i (k_proc k)), (Z.eqb_spec j (k_thr k)); cbn [andb] in X.
    { subst. exfalso. apply O. exists q. eexists. cbn [w_kq]. rewrite updZ_same. split; [reflexivity|auto]. }
    all: apply (v_free os w I i j x X); intros (q1 & k1 & K1 & O1 & O2); apply O; destruct (Z.eq_dec q1 q) as [->|D];
      [exists q; eexists; cbn [w_kq]; rewrite updZ_same; rewrite K in K1; injection K1 as <-; split; [reflexivity|cbn [k_proc k_thr]; split; congruence]|
       exists q1, k1; cbn [w_kq]; rewrite updZ_other by auto; auto].
  - assert (WW : forall q1 k1 i, updZ (w_kq w) q (Some (mkK (k_proc k) (k_thr k) (k_range k) (k_gso k) (k_max k) (k_wait k ++ [w_id w]))) q1 = Some k1 -> In i (k_wait k1) ->
             (q1 = q /\ i = w_id w) \/ exists k2, w_kq w q1 = Some k2 /\ In i (k_wait k2)).
    { intros q1 k1 i K1. unfold updZ in K1. destruct (Z.eqb_spec q1 q).
      - injection K1 as <-. subst. cbn [k_wait]. rewrite in_app_iff. intros [X|[<-|[]]]; eauto.
      - intros X. right. eauto. }
    intros q1 k1 i K1 Hi. destruct (WW q1 k1 i K1 Hi) as [(-> & ->)|(k2 & K2 & H2)].
    + split; [lia|]. intros q' k' K' H'. destruct (WW q' k' _ K' H') as [(-> & _)|(k3 & K3 & H3)]; auto.
      destruct (v_ids os w I q' k3 _ K3 H3) as (A & _). lia.
    + destruct (v_ids os w I q1 k2 i K2 H2) as (A & B). split; [lia|]. intros q' k' K' H'. destruct (WW q' k' _ K' H') as [(-> & ->)|(k3 & K3 & H3)]; [lia|eauto].
  - intros q1 k1 K1. unfold updZ in K1. destruct (Z.eqb_spec q1 q); [|eapply (v_nodup os w I); eauto].
    injection K1 as <-. cbn [k_wait]. assert (N := v_nodup os w I q k K). assert (B : ~ In (w_id w) (k_wait k)). { intros X. destruct (v_ids os w I q k _ K X) as (A & _). lia. }
    clear - N B. induction N as [|x l A N IH]; cbn [app]; constructor; auto.
    + constructor.
    + rewrite in_app_iff. intros [X|[X|[]]]; [auto|]. apply B. left. auto.
    + apply IH. intros X. apply B. right. auto.
Qed.
