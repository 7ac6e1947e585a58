(** All executions keep the invariants; verdicts, and the end of processes (C84). *)
From Coq Require Import String.
From Verif Require Import Base Lists Cstr_Model Rangeset_Spec Opt_Model Start_Spec Start_Proofs Setup_Model Setup_Spec Setup_Proofs Setup2_Proofs.

Section H.
Variable handle : handling.

(** What a step does *)
Inductive did (os : list kobs) (w : kworld) : klabel -> kworld -> list kobs -> Prop :=
| d_start : forall p s ql mt qs, w_proc w p = None -> queues s = Ok qs -> did os w (KStart p s ql mt) (started w p ql mt qs) [Started p s ql mt]
| d_config : forall p t ql mt th c r w' fine, w_proc w p = Some (ql, mt) -> w_thr w p t = Some th -> t_todo th = c :: r -> config w p t c = (w', fine) ->
    did os w (KTurn p t) (withThread w' p t (mkT r (if fine then t_inbox th else t_inbox th ++ [Err]))) []
| d_error : forall p t ql mt th, w_proc w p = Some (ql, mt) -> w_thr w p t = Some th -> t_todo th = [] -> ~ owns w p t -> did os w (KTurn p t) (ends w p) [Ended p]
| d_verdict : forall k ql mt th pk r id ids h, w_kq w (number16 (k_thr k)) = Some k -> w_proc w (k_proc k) = Some (ql, mt) -> w_thr w (k_proc k) (k_thr k) = Some th -> t_todo th = [] ->
    t_inbox th = Pkt (number16 (k_thr k)) id h (k_proto pk) (copied mt pk) :: r -> k_wait k = id :: ids ->
    In (Queued (number16 (k_thr k)) id pk) os -> (forall o, In o os -> ~ verdict_on id o) ->
    did os w (KTurn (k_proc k) (k_thr k))
      (withQueue (withThread w (k_proc k) (k_thr k) (mkT [] r)) (number16 (k_thr k)) (Some (mkK (k_proc k) (k_thr k) (k_range k) (k_gso k) (k_max k) ids)))
      [Verdict (k_proc k) (k_thr k) (number16 (k_thr k)) id (k_proto pk) (copied mt pk) (result (handle (k_proc k) id (k_proto pk) (copied mt pk)))]
| d_ends : forall l p ql mt, w_proc w p = Some (ql, mt) -> ~ spares p l -> did os w l (ends w p) [Ended p]
| d_queued : forall q h pk k th ql mt, w_kq w q = Some k -> w_thr w (k_proc k) (k_thr k) = Some th -> w_proc w (k_proc k) = Some (ql, mt) -> k_range k = Some (Z.min mt 65531) ->
    zlen (k_wait k) < k_max k ->
    did os w (KPacket q h pk)
      (mkKW (w_proc w) (updT (w_thr w) (k_proc k) (k_thr k) (mkT (t_todo th) (t_inbox th ++ [Pkt q (w_id w) h (k_proto pk) (copied mt pk)])))
            (updZ (w_kq w) q (Some (mkK (k_proc k) (k_thr k) (k_range k) (k_gso k) (k_max k) (k_wait k ++ [w_id w])))) (w_id w + 1)) [Queued q (w_id w) pk]
| d_refuses : forall l q pk, did os w l w [Refuses q pk].

Lemma zlen_firstn n (l : list Z) : 0 <= n -> zlen (firstn (Z.to_nat n) l) <= n.
Proof. intros N. unfold zlen. rewrite firstn_length. lia. Qed.

Lemma steps_do os w l w' ob : winv os w -> sane l -> kstep handle w l = Some (w', ob) -> did os w l w' ob.
Proof.
  intros I S E. destruct l as [p s ql mt|p t|p t|p|q h pk|q pk]; cbn [kstep] in E.
  - destruct (w_proc w p) eqn:P; [discriminate|]. destruct S as ((a & b & Q) & _). destruct (listed_queues s a b Q) as (qs & Eq & _). rewrite Eq in E.
    injection E as <- <-. apply d_start; auto.
  - destruct (w_proc w p) as [(ql, mt)|] eqn:P; [|discriminate]. destruct (w_thr w p t) as [th|] eqn:T; [|discriminate]. unfold turn in E.
    destruct (t_todo th) as [|c r] eqn:TD.
    + destruct (t_inbox th) as [|m r] eqn:IB; [discriminate|]. destruct m as [|q id h proto data].
      * injection E as <- <-. eapply d_error; eauto. intros O. destruct (owner_queue os w p t I O) as (k & K & <- & <-).
        destruct (v_own os w I _ k K) as (_ & x & ql' & mt' & P' & T' & _ & F). rewrite T in T'. injection T' as <-. rewrite IB in F.
        inversion F as [|m id ms ids (pk & h & X & _) F']; subst. discriminate.
      * destruct (inbox_owner os w p t th _ r I T TD IB) as (k & K & <- & <-); [discriminate|].
        destruct (v_own os w I _ k K) as (_ & x & ql' & mt' & P' & T' & _ & F). rewrite T in T'. injection T' as <-. rewrite P in P'. injection P' as <- <-. rewrite IB in F.
        inversion F as [|m id' ms ids (pk & h' & X & H & A & B) F' Y1 Y2]. subst. injection X as -> <- <- -> ->.
        assert (M : 576 <= mt) by (destruct (v_proc os w I _ ql mt P); auto).
        assert (LE : zlen (copied mt pk) <= mt) by (unfold copied; pose proof (zlen_firstn (Z.min mt 65531) (k_data pk)); lia).
        assert (NB : (bufSize mt <? h + zlen (copied mt pk)) = false) by (unfold bufSize; lia). rewrite NB in E. injection E as <- <-.
        assert (N := v_nodup os w I _ k K). symmetry in Y2. rewrite Y2 in N.
        unfold decided. cbn [withThread w_kq]. rewrite K, Y2, filter_head by auto.
        replace (if handle (k_proc k) id (k_proto pk) (copied mt pk) <? 0 then None else Some (handle (k_proc k) id (k_proto pk) (copied mt pk)))
          with (result (handle (k_proc k) id (k_proto pk) (copied mt pk))).
        2:{ unfold result. destruct (Z.leb_spec 0 (handle (k_proc k) id (k_proto pk) (copied mt pk))), (Z.ltb_spec (handle (k_proc k) id (k_proto pk) (copied mt pk)) 0); auto; lia. }
        change (mkKW (w_proc w) (updT (w_thr w) (k_proc k) (k_thr k) (mkT [] r)) (w_kq w) (w_id w)) with (withThread w (k_proc k) (k_thr k) (mkT [] r)).
        eapply d_verdict; eauto.
    + destruct (config w p t c) as (w1, fine) eqn:C. injection E as <- <-. eapply d_config; eauto.
  - destruct (w_proc w p) as [(ql, mt)|] eqn:P; [|discriminate]. destruct (w_thr w p t) as [th|] eqn:T; [|discriminate]. injection E as <- <-. eapply d_ends; eauto.
  - destruct (w_proc w p) as [(ql, mt)|] eqn:P; [|discriminate]. injection E as <- <-. eapply d_ends; eauto.
  - injection E as E. unfold enqueue in E. destruct (w_kq w q) as [k|] eqn:K; [|injection E as <- <-; apply d_refuses].
    destruct (v_own os w I _ k K) as (Q & th & ql & mt & P & T & ST & F). rewrite T in E.
    destruct (k_range k) as [r|] eqn:R; [|injection E as <- <-; apply d_refuses].
    assert (R' : k_range k = Some (Z.min mt 65531)). { destruct ST as [(_ & X & _)|[(_ & X)|(_ & X & _)]]; congruence. }
    rewrite R in R'. injection R' as ->.
    destruct (Z.leb_spec (k_max k) (zlen (k_wait k))); [injection E as <- <-; apply d_refuses|].
    cbv zeta in E. cbn [withThread withQueue w_proc w_thr w_kq w_id] in E. injection E as <- <-. rewrite <- R.
    apply (d_queued os w q h pk k th ql mt); auto.
  - injection E as <- <-. apply d_refuses.
Qed.

Lemma did_winv os w l w' ob : winv os w -> Forall (below (w_id w)) os -> sane l -> did os w l w' ob -> winv (os ++ ob) w'.
Proof.
  intros I V S D. destruct D as [p s ql mt qs P Q|p t ql mt th c r w' fine P T TD C|p t ql mt th P T TD NO|k ql mt th pk r id ids h K P T TD IB W QD NV|l p ql mt P SP|q h pk k th ql mt K T P R X|l q pk].
  - destruct S as (Q' & _ & M & _). apply winv_start; auto.
  - rewrite app_nil_r. assert (Z := inv_config os w p t th ql mt c r I T P TD). rewrite C in Z. exact Z.
  - apply winv_ends; auto.
  - apply winv_obs.
    + eapply winv_verdict; eauto.
    + intros. apply runs_quiet; discriminate.
    + intros q k1 i o K1 H [<-|[]] X. cbn [verdict_on] in X. subst i. cbn [withThread withQueue w_kq] in K1. unfold updZ in K1.
      assert (N := v_nodup os w I _ k K). rewrite W in N. assert (H0 : In id (k_wait k)) by (rewrite W; left; auto).
      destruct (Z.eqb_spec q (number16 (k_thr k))).
      * injection K1 as <-. cbn [k_wait] in H. inversion N; auto.
      * apply n. destruct (v_ids os w I _ k id K H0) as (_ & B). apply (B q k1 K1 H).
  - apply winv_ends; auto.
  - assert (NV : forall o, In o (os ++ [Queued q (w_id w) pk]) -> ~ verdict_on (w_id w) o).
    { intros o O. apply in_app_iff in O. destruct O as [O|[<-|[]]]; [|intros []]. rewrite Forall_forall in V. apply V in O. destruct o; cbn [verdict_on below] in *; try tauto. lia. }
    apply (winv_enqueue _ w q k th mt ql h pk); auto.
    + apply winv_obs; auto; [intros; apply runs_quiet; discriminate|]. intros q1 k1 i o _ _ [<-|[]]. intros [].
    + apply in_app_iff. right. left. reflexivity.
  - apply winv_obs; auto; [intros; apply runs_quiet; discriminate|]. intros q1 k1 i o _ _ [<-|[]]. intros [].
Qed.

(** What the set-up does to queues *)
Lemma config_keeps w p t c w' fine : config w p t c = (w', fine) -> w_id w' = w_id w /\ w_proc w' = w_proc w /\ w_thr w' = w_thr w /\
  forall q k, w_kq w q = Some k -> exists k', w_kq w' q = Some k' /\ k_proc k' = k_proc k /\ k_thr k' = k_thr k /\ k_wait k' = k_wait k.
Proof.
  intros E. assert (SAME : forall q k, w_kq w q = Some k -> exists k', w_kq w q = Some k' /\ k_proc k' = k_proc k /\ k_thr k' = k_thr k /\ k_wait k' = k_wait k) by eauto.
  destruct c; cbn [config] in E; try (injection E as <- <-; auto; fail).
  - destruct (w_kq w q) as [k|] eqn:K; injection E as <- <-; auto. cbn [withQueue w_id w_proc w_thr w_kq]. repeat (split; [reflexivity|]).
    intros q1 k1 K1. rewrite updZ_other by congruence. eauto.
  - destruct (w_kq w q) as [k|] eqn:K; [|injection E as <- <-; auto]. destruct (own k p t) eqn:O; injection E as <- <-; auto. apply own_iff in O. destruct O as (<- & <-).
    cbn [withQueue w_id w_proc w_thr w_kq]. repeat (split; [reflexivity|]). intros q1 k1 K1. unfold updZ. destruct (Z.eqb_spec q1 q); [|eauto].
    subst. rewrite K in K1. injection K1 as <-. eexists. split; [reflexivity|]. auto.
  - destruct (w_kq w q) as [k|] eqn:K; [|injection E as <- <-; auto]. destruct (own k p t) eqn:O; injection E as <- <-; auto. apply own_iff in O. destruct O as (<- & <-).
    cbn [withQueue w_id w_proc w_thr w_kq]. repeat (split; [reflexivity|]). intros q1 k1 K1. unfold updZ. destruct (Z.eqb_spec q1 q); [|eauto].
    subst. rewrite K in K1. injection K1 as <-. eexists. split; [reflexivity|]. auto.
Qed.

(** A queue stays until its process ends. *)
Lemma did_keeps os w l w' ob : winv os w -> did os w l w' ob -> w_id w <= w_id w' /\
  forall q k, w_kq w q = Some k -> In (Ended (k_proc k)) ob \/
    exists k', w_kq w' q = Some k' /\ k_proc k' = k_proc k /\ k_thr k' = k_thr k /\
      forall id, In id (k_wait k) -> (forall o, In o ob -> ~ verdict_on id o) -> In id (k_wait k').
Proof.
  intros I D. destruct D as [p s ql mt qs P Q|p t ql mt th c r w' fine P T TD C|p t ql mt th P T TD NO|k ql mt th pk r id ids h K P T TD IB W QD NV|l p ql mt P SP|q h pk k th ql mt K T P R X|l q pk].
  - split; [cbn; lia|]. intros q k K. right. exists k. cbn [started w_kq]. auto.
  - destruct (config_keeps _ _ _ _ _ _ C) as (A & _ & _ & B). split; [cbn [withThread w_id]; lia|]. intros q k K. right. destruct (B q k K) as (k' & K' & B1 & B2 & B3). exists k'.
    cbn [withThread w_kq]. rewrite B3. auto.
  - split; [cbn; lia|]. intros q k K. destruct (Z.eq_dec (k_proc k) p) as [->|N]; [left; left; reflexivity|right]. exists k. cbn [ends w_kq]. rewrite K.
    destruct (Z.eqb_spec (k_proc k) p); [contradiction|auto].
  - split; [cbn; lia|]. intros q k1 K1. right. cbn [withThread withQueue w_kq]. unfold updZ. destruct (Z.eqb_spec q (number16 (k_thr k))); [|exists k1; auto].
    subst. rewrite K in K1. injection K1 as <-. eexists. split; [reflexivity|]. cbn [k_proc k_thr k_wait]. split; auto. split; auto.
    intros i H NV'. rewrite W in H. destruct H as [<-|H]; auto. destruct (NV' _ (or_introl eq_refl)). reflexivity.
  - split; [cbn; lia|]. intros q k K. destruct (Z.eq_dec (k_proc k) p) as [->|N]; [left; left; reflexivity|right]. exists k. cbn [ends w_kq]. rewrite K.
    destruct (Z.eqb_spec (k_proc k) p); [contradiction|auto].
  - split; [cbn; lia|]. intros q1 k1 K1. right. cbn [w_kq]. unfold updZ. destruct (Z.eqb_spec q1 q); [|exists k1; auto].
    subst. rewrite K in K1. injection K1 as <-. eexists. split; [reflexivity|]. cbn [k_proc k_thr k_wait]. split; auto. split; auto. intros. apply in_app_iff. auto.
  - split; [lia|]. intros q1 k1 K1. right. exists k1. auto.
Qed.

Lemma below_le n m o : n <= m -> below n o -> below m o.
Proof. destruct o; cbn; lia. Qed.

Lemma oinv_step os ob w w' l : winv os w -> oinv handle os w -> did os w l w' ob -> oinv handle (os ++ ob) w'.
Proof.
  intros I O D. destruct (did_keeps os w l w' ob I D) as (LE & KEEP).
  assert (SEEN : Forall (below (w_id w')) os). { eapply Forall_impl; [|apply O]. intros o. apply below_le. auto. }
  assert (OLD : forall o1 o3 q id pk, os = o1 ++ Queued q id pk :: o3 -> (forall o, In o (o3 ++ ob) -> ~ verdict_on id o) ->
    exists p s qlen mtu t, In (Started p s qlen mtu) o1 /\ listed s t /\ number16 t = q /\
      ((exists k, w_kq w' q = Some k /\ k_proc k = p /\ k_thr k = t /\ In id (k_wait k)) \/ In (Ended p) (o3 ++ ob))).
  { intros o1 o3 q id pk E NV. destruct (v_queued handle os w O o1 o3 q id pk E) as (p & s & ql & mt & t & A & B & C & G).
    - intros o X. apply NV. apply in_app_iff. auto.
    - exists p, s, ql, mt, t. repeat (split; auto). destruct G as [(k & K & <- & <- & H)|G]; [|right; apply in_app_iff; auto].
      destruct (KEEP q k K) as [X|(k' & K' & A' & B' & C')]; [right; apply in_app_iff; auto|left]. exists k'. repeat (split; auto). apply C'; auto.
      intros o X. apply NV. apply in_app_iff. auto. }
  assert (BASE : Forall (below (w_id w')) ob -> NoDup (flat_map id_of (os ++ ob)) ->
    (forall b1 b2 p t q id proto data v, ob = b1 ++ Verdict p t q id proto data v :: b2 ->
      exists s qlen mtu pk, runs (os ++ b1) p s qlen mtu /\ listed s t /\ q = number16 t /\ In (Queued q id pk) os /\ proto = k_proto pk /\ data = copied mtu pk /\ v = result (handle p id proto data)) ->
    (forall q id pk, In (Queued q id pk) ob -> ob = [Queued q id pk] /\ id = w_id w /\
      exists s qlen mtu k, w_kq w' q = Some k /\ In (Started (k_proc k) s qlen mtu) os /\ listed s (k_thr k) /\ number16 (k_thr k) = q /\ In id (k_wait k)) ->
    oinv handle (os ++ ob) w').
  { intros B1 B2 B3 B4. constructor; auto.
    - apply Forall_app. auto.
    - intros o1 o2 p t q id proto data v E. destruct (snoc_split _ _ _ _ _ _ E) as [(o3 & -> & ->)|(b1 & -> & B)].
      + apply (v_verd handle _ w O o1 o3 p t q id proto data v eq_refl).
      + destruct (B3 b1 o2 p t q id proto data v B) as (s & ql & mt & pk & A1 & A2 & A3 & A4 & A5). exists s, ql, mt, pk. repeat (split; auto); try tauto. apply in_app_iff. auto.
    - assert (FRESH : forall q id pk q' pk', In (Queued q id pk) os -> In (Queued q' id pk') ob -> False).
      { intros q id pk q' pk' A B. destruct (B4 _ _ _ B) as (_ & -> & _). assert (X := v_seen handle os w O). rewrite Forall_forall in X. apply X in A. cbn [below] in A. lia. }
      intros q id pk q' pk' A B. apply in_app_iff in A, B. destruct A as [A|A], B as [B|B].
      + eapply (v_qonce handle os w O); eauto.
      + destruct (FRESH _ _ _ _ _ A B).
      + destruct (FRESH _ _ _ _ _ B A).
      + destruct (B4 _ _ _ A) as (E & _). rewrite E in B. destruct B as [B|[]]. injection B as -> ->. auto.
    - intros o1 o3 q id pk E NV. destruct (snoc_split _ _ _ _ _ _ E) as [(o4 & -> & ->)|(b1 & -> & B)].
      + apply (OLD o1 o4 q id pk); auto.
      + destruct (B4 q id pk) as (X & _ & s & ql & mt & k & K & A1 & A2 & A3 & A4); [rewrite B; apply in_app_iff; right; left; auto|].
        exists (k_proc k), s, ql, mt, (k_thr k). split; [apply in_app_iff; auto|]. split; auto. split; auto. left. exists k. auto. }
  assert (QUIET : forall x, ob = [x] -> (match x with Started _ _ _ _ | Ended _ | Refuses _ _ => True | _ => False end) -> oinv handle (os ++ ob) w').
  { intros x -> X. apply BASE.
    - constructor; [destruct x; cbn; tauto|constructor].
    - rewrite flat_map_app. cbn [flat_map]. replace (id_of x) with (@nil Z) by (destruct x; tauto). cbn [app]. rewrite app_nil_r. apply O.
    - intros b1 b2 p t q id proto data v E. destruct b1 as [|y [|z b1]]; try discriminate. injection E as ->. destruct X.
    - intros q id pk [->|[]]. destruct X. }
  destruct D as [p s ql mt qs P Q|p t ql mt th c r w' fine P T TD C|p t ql mt th P T TD NO|k ql mt th pk r id ids h K P T TD IB W QD NV|l p ql mt P SP|q h pk k th ql mt K T P R X|l q pk];
    try (eapply QUIET; [reflexivity|exact Logic.I]; fail).
  - apply BASE; [constructor|rewrite app_nil_r; apply O| |intros q id pk []]. intros b1 b2 p' t' q id proto data v E. destruct b1; discriminate.
  - destruct (v_proc os w I _ ql mt P) as (M & s & R & _ & L).
    assert (H0 : In id (k_wait k)) by (rewrite W; left; auto). destruct (v_ids os w I _ k id K H0) as (A & _). apply BASE.
    + constructor; [cbn; auto|constructor].
    + rewrite flat_map_app. cbn [flat_map id_of app]. assert (ND := v_once handle os w O). assert (NI : ~ In id (flat_map id_of os)).
      { intros X. apply in_flat_map in X. destruct X as (o & X & Y). destruct o; cbn [id_of In] in Y; try tauto. destruct Y as [->|[]]. apply (NV _ X). reflexivity. }
      clear - ND NI. induction ND as [|x l A N IH]; cbn [app]; constructor; auto; [constructor| |].
      * rewrite in_app_iff. intros [X|[X|[]]]; auto. apply NI. left. auto.
      * apply IH. intros X. apply NI. right. auto.
    + intros b1 b2 p t q i proto data v E. destruct b1 as [|y [|z b1]]; try discriminate. injection E as <- <- <- <- <- <- <- <-. exists s, ql, mt, pk. rewrite app_nil_r.
      split; auto. split; [apply L; rewrite T; discriminate|]. auto 10.
    + intros q i pk' [X|[]]. discriminate.
  - destruct (v_proc os w I _ ql mt P) as (M & s & Rn & _ & L). destruct (v_own os w I _ k K) as (Q & _). apply BASE.
    + constructor; [cbn; lia|constructor].
    + rewrite flat_map_app. cbn [flat_map id_of app]. rewrite app_nil_r. apply O.
    + intros b1 b2 p t q' i proto data v E. destruct b1 as [|y [|z b1]]; discriminate.
    + intros q' i pk' [E|[]]. injection E as <- <- <-. split; auto. split; auto. exists s, ql, mt. eexists. cbn [w_kq]. rewrite updZ_same. split; [reflexivity|]. cbn [k_proc k_thr k_wait].
      split; [eapply runs_started; eauto|]. split; [apply L; rewrite T; discriminate|]. split; auto. apply in_app_iff. right. left. reflexivity.
Qed.

Lemma winv_init : winv [] kstart.
Proof.
  constructor; try (intros; discriminate). intros p _. split; auto. intros s ql mt (o1 & o2 & E & _). destruct o1; discriminate.
Qed.
Lemma oinv_init : oinv handle [] kstart.
Proof.
  constructor; try (constructor; fail).
  - intros o1 o2 p t q id proto data v E. destruct o1; discriminate.
  - intros q id pk q' pk' [].
  - intros o1 o3 q id pk E. destruct o1; discriminate.
Qed.
Lemma exec_inv (ok : klabel -> Prop) os w : (forall l, ok l -> sane l) -> kexec handle ok os w -> winv os w /\ oinv handle os w.
Proof.
  intros OK X. induction X as [|os w l w' ob X (I & O) OL E]; [split; [apply winv_init|apply oinv_init]|].
  assert (D := steps_do os w l w' ob I (OK _ OL) E). split; [eapply did_winv; eauto; apply O|eapply oinv_step; eauto].
Qed.

(** ** Verdicts *)
Theorem verdicts os w o1 o2 p t q id proto data v : kexec handle sane os w -> os = o1 ++ Verdict p t q id proto data v :: o2 ->
  (exists s qlen mtu pk, runs o1 p s qlen mtu /\ listed s t /\ q = number16 t /\ In (Queued q id pk) o1 /\
    proto = k_proto pk /\ data = copied mtu pk /\ v = result (handle p id proto data)) /\
  (forall o, In o o1 \/ In o o2 -> ~ verdict_on id o).
Proof.
  intros X E. destruct (exec_inv sane os w (fun _ H => H) X) as (I & O). split; [eapply (v_verd handle os w O); eauto|].
  assert (N := v_once handle os w O). rewrite E, flat_map_app in N. cbn [flat_map id_of app] in N. apply NoDup_remove_2 in N. rewrite in_app_iff in N.
  intros o H V. apply N. destruct o; cbn [verdict_on] in V; try contradiction. subst. destruct H as [H|H]; [left|right]; apply in_flat_map; eexists; split; eauto; left; reflexivity.
Qed.

(** ** One run at a time *)
Lemma runs_once os w p s q m s' q' m' : kexec handle sane os w -> runs os p s q m -> runs os p s' q' m' -> s = s' /\ q = q' /\ m = m'.
Proof.
  intros X. revert p s q m s' q' m'. induction X as [|os w l w' ob X IH OL E]; intros p s q m s' q' m' R R'.
  - destruct R as (o1 & o2 & E & _). destruct o1; discriminate.
  - destruct (exec_inv sane os w (fun _ H => H) X) as (I & O). assert (D := steps_do os w l w' ob I OL E).
    destruct D as [p0 s0 ql mt qs P Q|p0 t ql mt th c r w' fine P T TD C|p0 t ql mt th P T TD NO|k ql mt th pk r id ids h K P T TD IB W QD NV|l p0 ql mt P SP|q0 h pk k th ql mt K T P Rg XX|l q0 pk].
    + apply runs_start in R, R'. destruct (v_none os w I p0 P) as (N & _).
      destruct R as [R|(-> & -> & -> & ->)], R' as [R'|(E1 & -> & -> & ->)]; subst; eauto; exfalso; eapply N; eauto.
    + rewrite app_nil_r in R, R'. eauto.
    + apply runs_end in R, R'. destruct R, R'. eauto.
    + apply runs_quiet in R, R'; try discriminate. eauto.
    + apply runs_end in R, R'. destruct R, R'. eauto.
    + apply runs_quiet in R, R'; try discriminate. eauto.
    + apply runs_quiet in R, R'; try discriminate. eauto.
Qed.
Lemma runs_proc os w p s ql mt : kexec handle sane os w -> runs os p s ql mt -> w_proc w p = Some (ql, mt) /\ (forall t, listed s t <-> w_thr w p t <> None).
Proof.
  intros X R. destruct (exec_inv sane os w (fun _ H => H) X) as (I & O). destruct (w_proc w p) as [(ql', mt')|] eqn:P.
  - destruct (v_proc os w I p ql' mt' P) as (_ & s' & R' & _ & L). destruct (runs_once os w p s ql mt s' ql' mt' X R R') as (-> & -> & ->). auto.
  - destruct (v_none os w I p P) as (N & _). destruct (N _ _ _ R).
Qed.
End H.
