(** Proofs about the queues of the kernel and their load-balancers (C84). *)
From Coq Require Import String.
From Verif Require Import Base Lists Cstr_Model Rangeset_Spec Opt_Model Start_Spec Start_Proofs Setup_Model Setup_Spec.

(** ** Small things *)
Lemma updZ_same A (f : Z -> A) k v : updZ f k v k = v.
Proof. unfold updZ. rewrite Z.eqb_refl. reflexivity. Qed.
Lemma updZ_other A (f : Z -> A) k v i : i <> k -> updZ f k v i = f i.
Proof. intros N. unfold updZ. destruct (Z.eqb_spec i k); [contradiction|reflexivity]. Qed.
Lemma updT_same f p t v : updT f p t v p t = Some v.
Proof. unfold updT. rewrite !Z.eqb_refl. reflexivity. Qed.
Lemma updT_other f p t v i j : ~ (i = p /\ j = t) -> updT f p t v i j = f i j.
Proof. intros N. unfold updT. destruct (Z.eqb_spec i p), (Z.eqb_spec j t); cbn [andb]; auto. destruct N. auto. Qed.

Lemma listed_queues s a b : queue_text s a b -> exists qs, queues s = Ok qs /\ NoDup qs /\ forall t, In t qs <-> listed s t.
Proof.
  intros Q. destruct (queues_text s a b Q) as (l & E & N & I). exists l. split; auto. split; auto. intros t. rewrite I. split.
  - intros R. exists a, b. auto.
  - intros (a' & b' & Q' & R). destruct (queues_text s a' b' Q') as (l' & E' & _ & I'). rewrite E in E'. injection E' as <-. apply I. apply I'. auto.
Qed.

Lemma runs_app os ob p s qlen mtu : ~ In (Ended p) ob -> runs os p s qlen mtu -> runs (os ++ ob) p s qlen mtu.
Proof.
  intros N (o1 & o2 & -> & E). exists o1, (o2 ++ ob). rewrite <- app_assoc. split; [reflexivity|]. rewrite in_app_iff. tauto.
Qed.
Lemma snoc_split A (os ob : list A) o1 x o2 : os ++ ob = o1 ++ x :: o2 ->
  (exists o3, os = o1 ++ x :: o3 /\ o2 = o3 ++ ob) \/ (exists b1, o1 = os ++ b1 /\ ob = b1 ++ x :: o2).
Proof.
  revert os. induction o1 as [|y o1 IH]; intros [|z os] E; cbn [app] in *.
  - right. exists []. auto.
  - left. injection E as -> E. exists os. auto.
  - right. exists (y :: o1). auto.
  - injection E as -> E. destruct (IH os E) as [(o3 & -> & ->)|(b1 & -> & ->)]; [left; exists o3; auto|right; exists b1; auto].
Qed.
Lemma runs_back os ob p s qlen mtu : (forall s q m, ~ In (Started p s q m) ob) -> runs (os ++ ob) p s qlen mtu -> runs os p s qlen mtu.
Proof.
  intros N (o1 & o2 & E & F). destruct (snoc_split _ _ _ _ _ _ E) as [(o3 & -> & ->)|(b1 & _ & ->)].
  - exists o1, o3. split; auto. rewrite in_app_iff in F. tauto.
  - destruct (N s qlen mtu). rewrite in_app_iff. right. left. reflexivity.
Qed.
Lemma runs_started os p s qlen mtu : runs os p s qlen mtu -> In (Started p s qlen mtu) os.
Proof. intros (o1 & o2 & -> & _). rewrite in_app_iff. right. left. reflexivity. Qed.

(** ** The invariant *)
Definition owns (w : kworld) (p t : Z) : Prop := exists q k, w_kq w q = Some k /\ k_proc k = p /\ k_thr k = t.
Definition pending (os : list kobs) (q mtu : Z) (m : kmsg) (id : Z) : Prop :=
  exists pk h, m = Pkt q id h (k_proto pk) (copied mtu pk) /\ 0 <= h <= 2048 /\ In (Queued q id pk) os /\ forall o, In o os -> ~ verdict_on id o.
Definition set_to (k : kq) (th : thread) (qlen mtu : Z) : Prop :=
  (t_todo th = skipn 3 (setup qlen mtu (k_thr k)) /\ k_range k = None /\ k_wait k = []) \/
  (t_todo th = skipn 4 (setup qlen mtu (k_thr k)) /\ k_range k = Some (Z.min mtu 65531)) \/
  (t_todo th = [] /\ k_range k = Some (Z.min mtu 65531) /\ k_max k = qlen).
Definition idle (th : thread) : Prop :=
  ((3 <= length (t_todo th))%nat /\ t_inbox th = []) \/ ((length (t_todo th) <= 2)%nat /\ exists r, t_inbox th = Err :: r).
Definition id_of (o : kobs) : list Z := match o with Verdict _ _ _ id _ _ _ => [id] | _ => [] end.
Definition below (n : Z) (o : kobs) : Prop := match o with Queued _ id _ => id < n | Verdict _ _ _ id _ _ _ => id < n | _ => True end.

(** What is in the world *)
Record winv (os : list kobs) (w : kworld) : Prop := {
  v_proc : forall p qlen mtu, w_proc w p = Some (qlen, mtu) -> 576 <= mtu /\
    exists s, runs os p s qlen mtu /\ (exists a b, queue_text s a b) /\ forall t, listed s t <-> w_thr w p t <> None;
  v_none : forall p, w_proc w p = None -> (forall s qlen mtu, ~ runs os p s qlen mtu) /\ forall t, w_thr w p t = None;
  v_todo : forall p t th qlen mtu, w_thr w p t = Some th -> w_proc w p = Some (qlen, mtu) -> exists n, (n <= 5)%nat /\ t_todo th = skipn n (setup qlen mtu t);
  v_own : forall q k, w_kq w q = Some k -> q = number16 (k_thr k) /\
    exists th qlen mtu, w_proc w (k_proc k) = Some (qlen, mtu) /\ w_thr w (k_proc k) (k_thr k) = Some th /\
      set_to k th qlen mtu /\ Forall2 (pending os q mtu) (t_inbox th) (k_wait k);
  v_free : forall p t th, w_thr w p t = Some th -> ~ owns w p t -> idle th;
  v_ids : forall q k id, w_kq w q = Some k -> In id (k_wait k) -> id < w_id w /\ forall q' k', w_kq w q' = Some k' -> In id (k_wait k') -> q' = q;
  v_nodup : forall q k, w_kq w q = Some k -> NoDup (k_wait k) }.
(** What was seen *)
Record oinv (handle : handling) (os : list kobs) (w : kworld) : Prop := {
  v_seen : Forall (below (w_id w)) os;
  v_once : NoDup (flat_map id_of os);
  v_verd : forall o1 o2 p t q id proto data v, os = o1 ++ Verdict p t q id proto data v :: o2 ->
    exists s qlen mtu pk, runs o1 p s qlen mtu /\ listed s t /\ q = number16 t /\ In (Queued q id pk) o1 /\
      proto = k_proto pk /\ data = copied mtu pk /\ v = result (handle p id proto data);
  v_qonce : forall q id pk q' pk', In (Queued q id pk) os -> In (Queued q' id pk') os -> q = q' /\ pk = pk';
  v_queued : forall o1 o3 q id pk, os = o1 ++ Queued q id pk :: o3 -> (forall o, In o o3 -> ~ verdict_on id o) ->
    exists p s qlen mtu t, In (Started p s qlen mtu) o1 /\ listed s t /\ number16 t = q /\
      ((exists k, w_kq w q = Some k /\ k_proc k = p /\ k_thr k = t /\ In id (k_wait k)) \/ In (Ended p) o3) }.

Lemma setup_skip n qlen mtu t : (n <= 5)%nat -> length (skipn n (setup qlen mtu t)) = (5 - n)%nat.
Proof. intros N. rewrite skipn_length. reflexivity. Qed.
Lemma set_len k th qlen mtu : set_to k th qlen mtu -> (length (t_todo th) <= 2)%nat.
Proof. intros [(E & _)|[(E & _)|(E & _)]]; rewrite E; cbn; lia. Qed.
Lemma own_iff k p t : own k p t = true <-> k_proc k = p /\ k_thr k = t.
Proof. unfold own. rewrite andb_true_iff, !Z.eqb_eq. reflexivity. Qed.

Lemma owner_queue os w p t : winv os w -> owns w p t -> exists k, w_kq w (number16 t) = Some k /\ k_proc k = p /\ k_thr k = t.
Proof. intros I (q & k & E & <- & <-). exists k. destruct (v_own os w I q k E) as (<- & _). auto. Qed.
Lemma owner_one os w q k q' k' : winv os w -> w_kq w q = Some k -> w_kq w q' = Some k' -> k_thr k = k_thr k' -> q = q'.
Proof. intros I E E' T. destruct (v_own os w I q k E) as (-> & _). destruct (v_own os w I q' k' E') as (-> & _). congruence. Qed.
Lemma owns_dec os w p t : winv os w -> owns w p t \/ ~ owns w p t.
Proof.
  intros I. destruct (w_kq w (number16 t)) as [k|] eqn:E.
  - destruct (own k p t) eqn:O; [left; exists (number16 t), k; rewrite own_iff in O; tauto|right]. intros O'.
    destruct (owner_queue os w p t I O') as (k' & E' & P). rewrite E in E'. injection E' as <-. apply own_iff in P. congruence.
  - right. intros O'. destruct (owner_queue os w p t I O') as (k' & E' & _). congruence.
Qed.

(** A thread without queue goes on *)
Lemma inv_idle os w p t th th' n qlen mtu : winv os w -> w_thr w p t = Some th -> w_proc w p = Some (qlen, mtu) -> ~ owns w p t ->
  (n <= 5)%nat -> t_todo th' = skipn n (setup qlen mtu t) -> idle th' -> winv os (withThread w p t th').
Proof.
  intros I T P NO N TD ID. constructor; cbn [withThread w_proc w_thr w_kq w_id]; try apply I.
  - intros i ql mt Pi. destruct (v_proc os w I i ql mt Pi) as (M & s & R & Q & L). split; auto. exists s. split; auto. split; auto.
    intros j. rewrite L. unfold updT. destruct (Z.eqb_spec i p), (Z.eqb_spec j t); cbn [andb]; try tauto. subst. rewrite T. split; discriminate.
  - intros i Pi. destruct (v_none os w I i Pi) as (R & L). split; auto. intros j. rewrite updT_other; [auto|]. intros (-> & _). congruence.
  - intros i j x ql mt X Pi. unfold updT in X. destruct (Z.eqb_spec i p), (Z.eqb_spec j t); cbn [andb] in X; try (eapply (v_todo os w I); eauto; fail).
    injection X as <-. subst. rewrite P in Pi. injection Pi as <- <-. eauto.
  - intros q k K. destruct (v_own os w I q k K) as (Q & x & ql & mt & Pi & X & S). split; auto. exists x, ql, mt. split; auto. split; auto.
    rewrite updT_other; auto. intros (A & B). apply NO. exists q, k. auto.
  - intros i j x X O. unfold updT in X. destruct (Z.eqb_spec i p), (Z.eqb_spec j t); cbn [andb] in X; try (eapply (v_free os w I); eauto; fail).
    injection X as <-. auto.
Qed.

(** A thread makes its queue *)
Lemma inv_bind os w p t th qlen mtu : winv os w -> w_thr w p t = Some th -> w_proc w p = Some (qlen, mtu) -> ~ owns w p t ->
  t_inbox th = [] -> w_kq w (number16 t) = None ->
  winv os (withThread (withQueue w (number16 t) (Some (mkK p t None false 1024 []))) p t (mkT (skipn 3 (setup qlen mtu t)) [])).
Proof.
  intros I T P NO IB K0. constructor; cbn [withThread withQueue w_proc w_thr w_kq w_id].
  - intros i ql mt Pi. destruct (v_proc os w I i ql mt Pi) as (M & s & R & Q & L). split; auto. exists s. split; auto. split; auto.
    intros j. rewrite L. unfold updT. destruct (Z.eqb_spec i p), (Z.eqb_spec j t); cbn [andb]; try tauto. subst. rewrite T. split; discriminate.
  - intros i Pi. destruct (v_none os w I i Pi) as (R & L). split; auto. intros j. rewrite updT_other; [auto|]. intros (-> & _). congruence.
  - intros i j x ql mt X Pi. unfold updT in X. destruct (Z.eqb_spec i p), (Z.eqb_spec j t); cbn [andb] in X; try (eapply (v_todo os w I); eauto; fail).
    injection X as <-. subst. rewrite P in Pi. injection Pi as <- <-. exists 3%nat. split; [lia|reflexivity].
  - intros q k K. unfold updZ in K. destruct (Z.eqb_spec q (number16 t)).
    + injection K as <-. cbn [k_proc k_thr]. split; auto. eexists _, qlen, mtu. split; [exact P|]. split; [apply updT_same|]. split; [left; auto|constructor].
    + destruct (v_own os w I q k K) as (Q & x & ql & mt & Pi & X & S). split; auto. exists x, ql, mt. split; auto. split; auto.
      rewrite updT_other; auto. intros (A & B). apply NO. exists q, k. auto.
  - intros i j x X O. unfold updT in X. destruct (Z.eqb_spec i p), (Z.eqb_spec j t); cbn [andb] in X.
    { subst. exfalso. apply O. exists (number16 t). eexists. cbn [withThread withQueue w_kq]. rewrite updZ_same. split; [reflexivity|auto]. }
    all: apply (v_free os w I i j x X); intros (q & k & K & O1 & O2); apply O; exists q, k; cbn [withThread withQueue w_kq]; rewrite updZ_other by (intros ->; congruence); auto.
  - intros q k id K H. unfold updZ in K. destruct (Z.eqb_spec q (number16 t)); [injection K as <-; destruct H|].
    destruct (v_ids os w I q k id K H) as (A & B). split; auto. intros q' k' K' H'. unfold updZ in K'.
    destruct (Z.eqb_spec q' (number16 t)); [injection K' as <-; destruct H'|eauto].
  - intros q k K. unfold updZ in K. destruct (Z.eqb_spec q (number16 t)); [injection K as <-; constructor|eapply (v_nodup os w I); eauto].
Qed.

(** The owner of a queue sets it up *)
Lemma inv_set os w q k k' th th' n qlen mtu : winv os w -> w_kq w q = Some k -> w_thr w (k_proc k) (k_thr k) = Some th -> w_proc w (k_proc k) = Some (qlen, mtu) ->
  k_proc k' = k_proc k -> k_thr k' = k_thr k -> k_wait k' = k_wait k -> t_inbox th' = t_inbox th -> set_to k' th' qlen mtu ->
  (n <= 5)%nat -> t_todo th' = skipn n (setup qlen mtu (k_thr k)) ->
  winv os (withThread (withQueue w q (Some k')) (k_proc k) (k_thr k) th').
Proof.
  intros I K T P Kp Kt Kw IB S N TD. constructor; cbn [withThread withQueue w_proc w_thr w_kq w_id].
  - intros i ql mt Pi. destruct (v_proc os w I i ql mt Pi) as (M & s & R & Q & L). split; auto. exists s. split; auto. split; auto.
    intros j. rewrite L. unfold updT. destruct (Z.eqb_spec i (k_proc k)), (Z.eqb_spec j (k_thr k)); cbn [andb]; try tauto. subst. rewrite T. split; discriminate.
  - intros i Pi. destruct (v_none os w I i Pi) as (R & L). split; auto. intros j. rewrite updT_other; [auto|]. intros (-> & _). congruence.
  - intros i j x ql mt X Pi. unfold updT in X. destruct (Z.eqb_spec i (k_proc k)), (Z.eqb_spec j (k_thr k)); cbn [andb] in X; try (eapply (v_todo os w I); eauto; fail).
    injection X as <-. subst. rewrite P in Pi. injection Pi as <- <-. eauto.
  - intros q1 k1 K1. unfold updZ in K1. destruct (Z.eqb_spec q1 q).
    + injection K1 as <-. subst q1. destruct (v_own os w I q k K) as (Q & x & ql & mt & Pi & X & S1 & F). rewrite T in X. injection X as <-.
      rewrite P in Pi. injection Pi as <- <-. rewrite Kp, Kt. split; auto. exists th', qlen, mtu. split; auto. split; [apply updT_same|]. split; auto. rewrite IB, Kw. auto.
    + destruct (v_own os w I q1 k1 K1) as (Q & x & ql & mt & Pi & X & S1). split; auto. exists x, ql, mt. split; auto. split; auto.
      rewrite updT_other; auto. intros (A & B). apply n0. eapply owner_one; eauto.
  - intros i j x X O. unfold updT in X. destruct (Z.eqb_spec i (k_proc k)), (Z.eqb_spec j (k_thr k)); cbn [andb] in X.
    { subst. exfalso. apply O. exists q. eexists. cbn [withThread withQueue w_kq]. rewrite updZ_same. split; [reflexivity|auto]. }
    all: apply (v_free os w I i j x X); intros (q1 & k1 & K1 & O1 & O2); apply O; destruct (Z.eq_dec q1 q) as [->|D];
      [exists q, k'; cbn [withThread withQueue w_kq]; rewrite updZ_same; rewrite K in K1; injection K1 as <-; split; [reflexivity|split; congruence]|
       exists q1, k1; cbn [withThread withQueue w_kq]; rewrite updZ_other by auto; auto].
  - assert (W : forall q1 k1, updZ (w_kq w) q (Some k') q1 = Some k1 -> exists k2, w_kq w q1 = Some k2 /\ k_wait k2 = k_wait k1).
    { intros q1 k1 K1. unfold updZ in K1. destruct (Z.eqb_spec q1 q); [injection K1 as <-; subst; exists k; auto|exists k1; auto]. }
    intros q1 k1 id K1 H. destruct (W q1 k1 K1) as (k2 & K2 & E2). rewrite <- E2 in H. destruct (v_ids os w I q1 k2 id K2 H) as (A & B). split; auto.
    intros q' k3 K3 H3. destruct (W q' k3 K3) as (k4 & K4 & E4). rewrite <- E4 in H3. eauto.
  - intros q1 k1 K1. unfold updZ in K1. destruct (Z.eqb_spec q1 q); [injection K1 as <-; rewrite Kw|]; eapply (v_nodup os w I); eauto.
Qed.

Lemma range_min mtu : 576 <= mtu -> (if (mtu =? 0) || (65531 <? mtu) then 65531 else mtu) = Z.min mtu 65531.
Proof. intros M. destruct (mtu =? 0) eqn:E; [lia|]. cbn [orb]. destruct (65531 <? mtu) eqn:F; lia. Qed.

(** A message of the set-up *)
Lemma inv_config os w p t th qlen mtu c r : winv os w -> w_thr w p t = Some th -> w_proc w p = Some (qlen, mtu) -> t_todo th = c :: r ->
  winv os (let (w', fine) := config w p t c in withThread w' p t (mkT r (if fine then t_inbox th else t_inbox th ++ [Err]))).
Proof.
  intros I T P TD. destruct (v_todo os w I p t th qlen mtu T P) as (n & N & E). rewrite TD in E.
  assert (M : 576 <= mtu) by (destruct (v_proc os w I p qlen mtu P); auto).
  assert (OL : owns w p t -> (length (t_todo th) <= 2)%nat).
  { intros O. destruct (owner_queue os w p t I O) as (k & K & <- & <-). destruct (v_own os w I _ k K) as (_ & x & ql & mt & Pi & X & S & _).
    rewrite T in X. injection X as <-. eapply set_len; eauto. }
  assert (L := setup_skip n qlen mtu t N). rewrite <- E in L.
  assert (F : ~ owns w p t -> forall ib, (forall x, t_inbox th = Err :: x -> exists y, ib = Err :: y) -> (length r = 2%nat -> exists y, ib = Err :: y) ->
              (t_inbox th = [] -> (3 <= length r)%nat -> ib = []) -> winv os (withThread w p t (mkT r ib))).
  { intros NO ib B1 B2 B3. assert (ID := v_free os w I p t th T NO). destruct n as [|[|[|[|[|n]]]]]; cbn [setup skipn] in E; try discriminate; injection E as -> ->.
    - apply (inv_idle os w p t th _ 1 qlen mtu I T P NO); [lia|reflexivity|]. left. cbn [t_todo t_inbox]. split; [cbn; lia|]. destruct ID as [(_ & ID)|(ID & _)]; [|rewrite TD in ID; cbn in ID; lia].
      apply B3; auto. cbn. lia.
    - apply (inv_idle os w p t th _ 2 qlen mtu I T P NO); [lia|reflexivity|]. left. cbn [t_todo t_inbox]. split; [cbn; lia|]. destruct ID as [(_ & ID)|(ID & _)]; [|rewrite TD in ID; cbn in ID; lia].
      apply B3; auto.
    - apply (inv_idle os w p t th _ 3 qlen mtu I T P NO); [lia|reflexivity|]. right. cbn [t_todo t_inbox]. split; [cbn; lia|]. apply B2. reflexivity.
    - apply (inv_idle os w p t th _ 4 qlen mtu I T P NO); [lia|reflexivity|]. right. cbn [t_todo t_inbox]. split; [cbn; lia|]. destruct ID as [(ID & _)|(_ & x & ID)]; [rewrite TD in ID; cbn in ID; lia|]. eauto.
    - apply (inv_idle os w p t th _ 5 qlen mtu I T P NO); [lia|reflexivity|]. right. cbn [t_todo t_inbox]. split; [cbn; lia|]. destruct ID as [(ID & _)|(_ & x & ID)]; [rewrite TD in ID; cbn in ID; lia|]. eauto. }
  assert (G : ~ owns w p t -> length r <> 2%nat -> winv os (withThread w p t (mkT r (t_inbox th)))).
  { intros NO R. apply F; auto; intros; try contradiction; eauto. }
  assert (H : ~ owns w p t -> (length r <= 2)%nat -> winv os (withThread w p t (mkT r (t_inbox th ++ [Err])))).
  { intros NO R. apply F; auto.
    - intros x ->. cbn. eauto.
    - intros R2. destruct (t_inbox th) as [|m ib] eqn:IB; [cbn; eauto|]. destruct (v_free os w I p t th T NO) as [(_ & X)|(X & _)]; [rewrite IB in X; discriminate|].
      rewrite TD in X. cbn in X. lia.
    - intros _ R3. lia. }
  destruct n as [|[|[|[|[|n]]]]]; cbn [setup skipn] in E; try discriminate; injection E as -> ->; cbn [config].
  - apply G; [|cbn; lia]. intros O. apply OL in O. rewrite TD in O. cbn in O. lia.
  - apply G; [|cbn; lia]. intros O. apply OL in O. rewrite TD in O. cbn in O. lia.
  - assert (NO : ~ owns w p t) by (intros O; apply OL in O; rewrite TD in O; cbn in O; lia).
    fold (number16 t). destruct (w_kq w (number16 t)) as [k|] eqn:K; [apply H; auto|].
    assert (IB : t_inbox th = []). { destruct (v_free os w I p t th T NO) as [(_ & X)|(X & _)]; auto. rewrite TD in X. cbn in X. lia. }
    rewrite IB. apply (inv_bind os w p t th qlen mtu); auto.
  - fold (number16 t). destruct (w_kq w (number16 t)) as [k|] eqn:K.
    + destruct (own k p t) eqn:O.
      * apply own_iff in O. destruct O as (<- & <-). destruct (v_own os w I _ k K) as (_ & x & ql & mt & Pi & X & S & _). rewrite T in X. injection X as <-.
        rewrite P in Pi. injection Pi as <- <-. rewrite range_min by auto.
        apply (inv_set os w _ k _ th _ 4 qlen mtu I K T P); try reflexivity; [|lia]. right. left. split; reflexivity.
      * apply H; [|cbn; lia]. intros O'. destruct (owner_queue os w p t I O') as (k' & K' & O2). rewrite K in K'. injection K' as <-. apply own_iff in O2. congruence.
    + apply H; [|cbn; lia]. intros O'. destruct (owner_queue os w p t I O') as (k' & K' & O2). congruence.
  - fold (number16 t). destruct (w_kq w (number16 t)) as [k|] eqn:K.
    + destruct (own k p t) eqn:O.
      * apply own_iff in O. destruct O as (<- & <-). destruct (v_own os w I _ k K) as (_ & x & ql & mt & Pi & X & S & _). rewrite T in X. injection X as <-.
        rewrite P in Pi. injection Pi as <- <-.
        apply (inv_set os w _ k _ th _ 5 qlen mtu I K T P); try reflexivity. right. right. split; [reflexivity|]. split; [|reflexivity]. cbn [k_range].
        destruct S as [(S & _)|[(_ & S)|(S & _)]]; auto; rewrite TD in S; cbn in S; discriminate.
      * apply H; [|cbn; lia]. intros O'. destruct (owner_queue os w p t I O') as (k' & K' & O2). rewrite K in K'. injection K' as <-. apply own_iff in O2. congruence.
    + apply H; [|cbn; lia]. intros O'. destruct (owner_queue os w p t I O') as (k' & K' & O2). congruence.
Qed.
