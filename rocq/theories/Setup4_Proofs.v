(** Load-balancers that go on, and those that cannot (C84). *)
From Coq Require Import String.
From Verif Require Import Base Lists Cstr_Model Rangeset_Spec Opt_Model Start_Spec Start_Proofs Setup_Model Setup_Spec Setup_Proofs Setup2_Proofs Setup3_Proofs.

Lemma apart_app os ob : apart (os ++ ob) -> apart os.
Proof. intros A p s ql mt p' s' ql' mt' t t' H H'. apply (A p s ql mt p' s' ql' mt' t t'); apply in_app_iff; auto. Qed.
Lemma exec_mono handle (ok ok' : klabel -> Prop) os w : (forall l, ok l -> ok' l) -> kexec handle ok os w -> kexec handle ok' os w.
Proof. intros M X. induction X as [|os w l w' ob X IH OL E]; econstructor; eauto. Qed.

Section H.
Variable handle : handling.

(** ** No two have the same queue: all get theirs *)
Definition fine (w : kworld) : Prop := forall p t th, w_thr w p t = Some th -> ~ owns w p t -> (3 <= length (t_todo th))%nat.
Lemma owns_keep os w l w' ob p t : winv os w -> did handle os w l w' ob -> owns w p t -> ~ In (Ended p) ob -> owns w' p t.
Proof.
  intros I D (q & k & K & <- & <-) N. destruct (did_keeps handle os w l w' ob I D) as (_ & A). destruct (A q k K) as [X|(k' & K' & B & C & _)]; [contradiction|].
  exists q, k'. auto.
Qed.
Lemma thread_kept os w l w' ob p t th' : winv os w -> did handle os w l w' ob -> w_thr w' p t = Some th' ->
  (exists s ql mt, ob = [Started p s ql mt] /\ th' = mkT (setup ql mt t) []) \/
  (exists th, w_thr w p t = Some th /\ ~ In (Ended p) ob /\ (t_todo th' = t_todo th \/ exists c, t_todo th = c :: t_todo th' /\ l = KTurn p t)).
Proof.
  intros I D T'. destruct D as [p0 s0 ql mt qs P Q|p0 t0 ql mt th c r w' fi P T TD C|p0 t0 ql mt th P T TD NO|k ql mt th pk r id ids h K P T TD IB W QD NV|l p0 ql mt P SP|q0 h pk k th ql mt K T P Rg XX|l q0 pk].
  - cbn [started w_thr] in T'. destruct (Z.eqb_spec p p0).
    + left. subst. destruct (existsb (Z.eqb t) qs); [|discriminate]. injection T' as <-. eauto.
    + right. exists th'. split; auto. split; [|auto]. intros [X|[]]. discriminate.
  - right. cbn [withThread w_thr] in T'. destruct (config_keeps _ _ _ _ _ _ C) as (_ & _ & ET & _). rewrite ET in T'. unfold updT in T'.
    destruct (Z.eqb_spec p p0), (Z.eqb_spec t t0); cbn [andb] in T'; try (exists th'; split; [auto|]; split; [intros []|auto]; fail).
    injection T' as <-. subst. exists th. split; auto. split; [intros []|]. right. eauto.
  - right. cbn [ends w_thr] in T'. destruct (Z.eqb_spec p p0); [discriminate|]. exists th'. split; auto. split; [|auto]. intros [X|[]]. congruence.
  - right. cbn [withThread withQueue w_thr] in T'. unfold updT in T'.
    destruct (Z.eqb_spec p (k_proc k)), (Z.eqb_spec t (k_thr k)); cbn [andb] in T'; try (exists th'; split; [auto|]; split; [intros [X|[]]; discriminate|auto]; fail).
    injection T' as <-. subst. exists th. split; auto. split; [intros [X|[]]; discriminate|]. auto.
  - right. cbn [ends w_thr] in T'. destruct (Z.eqb_spec p p0); [discriminate|]. exists th'. split; auto. split; [|auto]. intros [X|[]]. congruence.
  - right. cbn [w_thr] in T'. unfold updT in T'.
    destruct (Z.eqb_spec p (k_proc k)), (Z.eqb_spec t (k_thr k)); cbn [andb] in T'; try (exists th'; split; [auto|]; split; [intros [X|[]]; discriminate|auto]; fail).
    injection T' as <-. subst. exists th. split; auto. split; [intros [X|[]]; discriminate|]. auto.
  - right. exists th'. split; auto. split; [|auto]. intros [X|[]]. discriminate.
Qed.

Lemma exec_fine os w : kexec handle sane os w -> apart os -> fine w.
Proof.
  intros X. induction X as [|os w l w' ob X IH OL E]; intros A; [intros p t th T; discriminate|].
  assert (F := IH (apart_app _ _ A)). apply apart_app in A. destruct (exec_inv handle sane os w (fun _ H => H) X) as (I & O).
  assert (D := steps_do handle os w l w' ob I OL E). intros p t th' T' NO.
  destruct (thread_kept os w l w' ob p t th' I D T') as [(s & ql & mt & -> & ->)|(th & T & NE & TD)]; [cbn; lia|].
  assert (NO0 : ~ owns w p t) by (intros Y; apply NO; eapply owns_keep; eauto). assert (L := F p t th T NO0).
  destruct TD as [->|(c & TD & ->)]; auto. cbn [kstep] in E. destruct (w_proc w p) as [(ql, mt)|] eqn:P; [|discriminate]. rewrite T in E. unfold turn in E. rewrite TD in E.
  destruct (v_todo os w I p t th ql mt T P) as (n & N & EN). rewrite TD in EN. rewrite TD in L. cbn [length] in L.
  assert (LN := setup_skip n ql mt t N). rewrite <- EN in LN. cbn [length] in LN.
  destruct n as [|[|[|n]]]; try lia. cbn [setup skipn] in EN. injection EN as -> TD'. cbn [config] in E. fold (number16 t) in E.
  destruct (w_kq w (number16 t)) as [k|] eqn:K.
  - exfalso. destruct (v_own os w I _ k K) as (Q & x & ql1 & mt1 & P1 & T1 & _). destruct (v_proc os w I _ _ _ P) as (_ & s & R & _ & Ls). destruct (v_proc os w I _ _ _ P1) as (_ & s1 & R1 & _ & Ls1).
    destruct (A p s ql mt (k_proc k) s1 ql1 mt1 t (k_thr k)) as (E1 & E2); auto.
    + eapply runs_started; eauto.
    + eapply runs_started; eauto.
    + apply Ls. rewrite T. discriminate.
    + apply Ls1. rewrite T1. discriminate.
    + apply NO0. exists (number16 t), k. auto.
  - exfalso. apply NO. injection E as <- <-. exists (number16 t). eexists. cbn [withThread withQueue w_kq]. rewrite updZ_same. split; [reflexivity|auto].
Qed.

Lemma turn_alive os w p t w' ob i : kexec handle sane os w -> apart os -> kstep handle w (KTurn p t) = Some (w', ob) -> ~ In (Ended i) ob.
Proof.
  intros X A E H. destruct (exec_inv handle sane os w (fun _ H => H) X) as (I & O). assert (F := exec_fine os w X A).
  assert (D := steps_do handle os w (KTurn p t) w' ob I Logic.I E). remember (KTurn p t) as l eqn:EL.
  destruct D as [p0 s0 ql mt qs P Q|p0 t0 ql mt th c r w' fi P T TD C|p0 t0 ql mt th P T TD NO|k ql mt th pk r id ids h K P T TD IB W QD NV|l p0 ql mt P SP|q0 h pk k th ql mt K T P Rg XX|l q0 pk]; try (destruct H as [H|[]]; discriminate).
  - destruct H.
  - assert (L := F p0 t0 th T NO). rewrite TD in L. cbn in L. lia.
  - subst l. apply SP. exact Logic.I.
Qed.

Theorem alive os w p : kexec handle (fun l => sane l /\ spares p l) os w -> apart os -> ~ In (Ended p) os.
Proof.
  intros X. induction X as [|os w l w' ob X IH (OL & SP) E]; intros A; [intros []|]. rewrite in_app_iff. intros [H|H]; [apply IH in H; auto; eapply apart_app; eauto|].
  apply apart_app in A. assert (X' := exec_mono handle _ sane _ _ (fun l H => proj1 H) X).
  destruct (exec_inv handle sane os w (fun _ H => H) X') as (I & O). assert (F := exec_fine os w X' A). assert (D := steps_do handle os w l w' ob I OL E).
  destruct D as [p0 s0 ql mt qs P Q|p0 t0 ql mt th c r w' fi P T TD C|p0 t0 ql mt th P T TD NO|k ql mt th pk r id ids h K P T TD IB W QD NV|l p0 ql mt P SP'|q0 h pk k th ql mt K T P Rg XX|l q0 pk]; try (destruct H as [H|[]]; discriminate).
  - destruct H.
  - assert (L := F p0 t0 th T NO). rewrite TD in L. cbn in L. lia.
  - destruct H as [H|[]]. injection H as ->. contradiction.
Qed.

(** ** What waits is served *)
Lemma apart_more os ob : apart os -> (forall p s q m, ~ In (Started p s q m) ob) -> apart (os ++ ob).
Proof.
  intros A N p s ql mt p' s' ql' mt' t t' H H'. apply in_app_iff in H, H'. destruct H as [H|H]; [|destruct (N _ _ _ _ H)]. destruct H' as [H'|H']; [|destruct (N _ _ _ _ H')].
  eapply A; eauto.
Qed.
Lemma turn_no_start os w p t w' ob : kexec handle sane os w -> kstep handle w (KTurn p t) = Some (w', ob) -> forall i s q m, ~ In (Started i s q m) ob.
Proof.
  intros X E i s q m H. destruct (exec_inv handle sane os w (fun _ H => H) X) as (I & O).
  assert (D := steps_do handle os w (KTurn p t) w' ob I Logic.I E). remember (KTurn p t) as l eqn:EL. destruct D; try discriminate; cbn [In] in H; repeat (destruct H as [H|H]; [discriminate|]); destruct H.
Qed.
Lemma exec_run os w ls w' ob : kexec handle sane os w -> Forall sane ls -> krun handle w ls = Some (w', ob) -> kexec handle sane (os ++ ob) w'.
Proof.
  revert os w w' ob. induction ls as [|l ls IH]; intros os w w' ob X F E; cbn [krun] in E.
  - injection E as <- <-. rewrite app_nil_r. auto.
  - inversion F; subst. destruct (kstep handle w l) as [(w1, o1)|] eqn:S; [|discriminate]. destruct (krun handle w1 ls) as [(w2, o2)|] eqn:R; [|discriminate].
    injection E as <- <-. rewrite app_assoc. eapply IH; eauto. econstructor; eauto.
Qed.

Lemma drains os w p s ql mt t : kexec handle sane os w -> apart os -> runs os p s ql mt -> listed s t ->
  exists n w' ob, krun handle w (repeat (KTurn p t) n) = Some (w', ob) /\ (forall i, ~ In (Ended i) ob) /\ (forall i a b c, ~ In (Started i a b c) ob) /\
    exists th, w_thr w' p t = Some th /\ t_todo th = [] /\ t_inbox th = [].
Proof.
  intros X A R L. destruct (runs_proc handle os w p s ql mt X R) as (P & LT). assert (T := proj1 (LT t) L). destruct (w_thr w p t) as [th|] eqn:TH; [clear T|contradiction].
  clear LT. remember (2 * length (t_todo th) + length (t_inbox th))%nat as m eqn:EM. revert os w th X A R P TH EM.
  induction m as [m IH] using lt_wf_ind. intros os w th X A R P TH EM.
  destruct (kstep handle w (KTurn p t)) as [(w1, o1)|] eqn:S.
  - assert (X1 : kexec handle sane (os ++ o1) w1) by (eapply kx_step; [exact X| |exact S]; exact Logic.I).
    assert (NS := turn_no_start os w p t w1 o1 X S). assert (NE : forall i, ~ In (Ended i) o1) by (intros i; exact (turn_alive os w p t w1 o1 i X A S)).
    assert (TH1 : exists th1, w_thr w1 p t = Some th1 /\ (2 * length (t_todo th1) + length (t_inbox th1) < m)%nat).
    { cbn [kstep] in S. rewrite P, TH in S. unfold turn in S. destruct (t_todo th) as [|c r] eqn:TD.
      - destruct (t_inbox th) as [|[|q id h proto data] r] eqn:IB; [discriminate|injection S as <- <-; destruct (NE p); left; reflexivity|].
        destruct (bufSize mt <? h + zlen data); [injection S as <- <-; destruct (NE p); left; reflexivity|]. injection S as <- <-. exists (mkT [] r). split; [|cbn in *; lia].
        unfold decided. destruct (w_kq _ q); cbn [withThread withQueue w_thr]; apply updT_same.
      - destruct (config w p t c) as (w2, fi). injection S as <- <-. eexists. cbn [withThread w_thr]. rewrite updT_same. split; [reflexivity|]. cbn [t_todo t_inbox].
        cbn [length] in EM. destruct fi; [lia|]. rewrite app_length. cbn [length]. lia. }
    destruct TH1 as (th1 & TH1 & LT). assert (R1 : runs (os ++ o1) p s ql mt) by (apply runs_app; auto).
    destruct (runs_proc handle _ w1 p s ql mt X1 R1) as (P1 & _).
    destruct (IH _ LT (os ++ o1) w1 th1 X1 (apart_more _ _ A NS) R1 P1 TH1 eq_refl) as (n & w' & ob & E & NE' & NS' & F).
    exists (Datatypes.S n), w', (o1 ++ ob). cbn [repeat krun]. rewrite S, E. split; auto. split; [intros i; rewrite in_app_iff; intros [H|H]; [eapply NE|eapply NE']; eauto|].
    split; auto. intros i a b c. rewrite in_app_iff. intros [H|H]; [eapply NS|eapply NS']; eauto.
  - exists 0%nat, w, []. cbn [repeat krun]. split; auto. split; [intros i []|]. split; [intros i a b c []|]. exists th. split; auto.
    cbn [kstep] in S. rewrite P, TH in S. unfold turn in S. destruct (t_todo th) as [|c r]; [|destruct (config w p t c); discriminate].
    destruct (t_inbox th) as [|[|q id h proto data] r]; [auto|discriminate|]. destruct (bufSize mt <? h + zlen data); discriminate.
Qed.

Lemma verdict_dec id os : (exists o, In o os /\ verdict_on id o) \/ (forall o, In o os -> ~ verdict_on id o).
Proof.
  induction os as [|o os [(x & A & B)|IH]]; [right; intros o []|left; exists x; split; auto; right; auto|].
  destruct o as [| | |p t q i proto data v|]; try (right; intros o [<-|H]; [intros []|auto]; fail).
  destruct (Z.eq_dec i id) as [->|N]; [left; eexists; split; [left; reflexivity|reflexivity]|]. right. intros o [<-|H]; auto.
Qed.

Theorem served os w p s ql mt t : kexec handle sane os w -> apart os -> runs os p s ql mt -> listed s t ->
  exists n w' ob, krun handle w (repeat (KTurn p t) n) = Some (w', ob) /\ (forall i, ~ In (Ended i) ob) /\
    (forall id pk, waits os p (number16 t) id pk ->
       In (Verdict p t (number16 t) id (k_proto pk) (copied mt pk) (result (handle p id (k_proto pk) (copied mt pk)))) ob) /\
    (0 < ql -> forall h pk, exists w2 id, kstep handle w' (KPacket (number16 t) h pk) = Some (w2, [Queued (number16 t) id pk])).
Proof.
  intros X A R L. destruct (drains os w p s ql mt t X A R L) as (n & w' & ob & E & NE & NS & th & T & TD & IB). exists n, w', ob. split; auto. split; auto.
  assert (X' : kexec handle sane (os ++ ob) w'). { apply (exec_run os w (repeat (KTurn p t) n) w' ob X); auto. apply Forall_forall. intros l H. apply repeat_spec in H. subst. exact Logic.I. }
  assert (A' := apart_more os ob A NS). destruct (exec_inv handle sane _ w' (fun _ H => H) X') as (I & O).
  assert (F := exec_fine _ w' X' A').
  assert (OW : owns w' p t). { destruct (owns_dec _ w' p t I) as [OW|OW]; auto. assert (Y := F p t th T OW). rewrite TD in Y. cbn in Y. lia. }
  destruct (owner_queue _ w' p t I OW) as (k & K & <- & <-). destruct (v_own _ w' I _ k K) as (_ & x & ql' & mt' & P' & T' & ST & FF). rewrite T in T'. injection T' as <-.
  destruct (runs_proc handle (os ++ ob) w' (k_proc k) s ql mt X') as (P & _); [apply runs_app; auto|]. rewrite P in P'. injection P' as <- <-.
  rewrite IB in FF. assert (W0 : k_wait k = []) by (inversion FF; auto). clear FF.
  destruct ST as [(Y & _)|[(Y & _)|(_ & RG & MX)]]; [rewrite TD in Y; discriminate|rewrite TD in Y; discriminate|]. split.
  - intros id pk (s1 & ql1 & mt1 & o1 & o2 & o3 & EO & N2 & N3 & NV).
    assert (INQ : In (Queued (number16 (k_thr k)) id pk) os). { rewrite EO. apply in_app_iff. right. right. apply in_app_iff. right. left. reflexivity. }
    assert (INS : In (Started (k_proc k) s1 ql1 mt1) os). { rewrite EO. apply in_app_iff. right. left. reflexivity. }
    destruct (verdict_dec id ob) as [(o & Ho & V)|NVo].
    + destruct o as [| | |p1 t1 q1 i proto data v|]; cbn [verdict_on] in V; try contradiction. subst i. destruct (in_split _ _ Ho) as (b1 & b2 & EB).
      destruct (v_verd handle _ w' O (os ++ b1) b2 p1 t1 q1 id proto data v) as (s2 & ql2 & mt2 & pk2 & R2 & L2 & -> & Q2 & -> & -> & ->); [rewrite EB, <- app_assoc; reflexivity|].
      assert (NS1 : forall i a b c, ~ In (Started i a b c) b1). { intros i a b c H. apply (NS i a b c). rewrite EB. apply in_app_iff. auto. }
      apply runs_back in R2; [|apply NS1].
      assert (Q2' : In (Queued (number16 t1) id pk2) (os ++ ob)). { rewrite EB. apply in_app_iff in Q2. rewrite !in_app_iff. tauto. }
      destruct (v_qonce handle _ w' O (number16 t1) id pk2 (number16 (k_thr k)) pk Q2') as (EN & ->); [apply in_app_iff; auto|].
      destruct (A p1 s2 ql2 mt2 (k_proc k) s ql mt t1 (k_thr k)) as (-> & ->); auto; try (eapply runs_started; eauto).
      destruct (runs_once handle os w _ _ _ _ _ _ _ X R R2) as (<- & <- & <-). auto.
    + exfalso. destruct (v_queued handle _ w' O (o1 ++ Started (k_proc k) s1 ql1 mt1 :: o2) (o3 ++ ob) (number16 (k_thr k)) id pk) as (p2 & s2 & ql2 & mt2 & t2 & S2 & L2 & N16 & G).
      * rewrite EO. rewrite <- !app_assoc. cbn [app]. rewrite <- !app_assoc. reflexivity.
      * intros o H. apply in_app_iff in H. destruct H; auto.
      * assert (S2' : In (Started p2 s2 ql2 mt2) os). { rewrite EO. apply in_app_iff in S2. rewrite in_app_iff. cbn [In]. rewrite in_app_iff. cbn [In] in S2. tauto. }
        destruct (A p2 s2 ql2 mt2 (k_proc k) s ql mt t2 (k_thr k)) as (-> & ->); auto; [eapply runs_started; eauto|].
        destruct G as [(k2 & K2 & _ & _ & H2)|G].
        { rewrite K in K2. injection K2 as <-. rewrite W0 in H2. destruct H2. }
        apply in_app_iff in G. destruct G as [G|G]; [contradiction|]. apply (NE _ G).
  - intros QL h pk. cbn [kstep]. unfold enqueue. rewrite K, RG, T, MX, W0. destruct (Z.leb_spec ql (zlen (@nil Z))); [unfold zlen in *; cbn in *; lia|]. cbv zeta. eauto.
Qed.

(** ** Others cannot disturb *)
Lemma worked_owns os w p t : kexec handle sane os w -> worked os p t -> owns w p t.
Proof.
  intros X. induction X as [|os w l w' ob X IH OL E]; intros (o1 & o2 & q & id & proto & data & v & EO & NE); [destruct o1; discriminate|].
  destruct (exec_inv handle sane os w (fun _ H => H) X) as (I & O). assert (D := steps_do handle os w l w' ob I OL E).
  destruct (snoc_split _ _ _ _ _ _ EO) as [(o3 & -> & ->)|(b1 & -> & ->)].
  - rewrite in_app_iff in NE. eapply owns_keep; eauto. apply IH. exists o1, o3, q, id, proto, data, v. tauto.
  - remember (b1 ++ Verdict p t q id proto data v :: o2) as ob eqn:EB. destruct D; try (destruct b1 as [|y [|z b1]]; discriminate).
    destruct b1 as [|y [|z b1]]; try discriminate. injection EB as <- <- <- <- <- <- <- <-.
    exists (number16 (k_thr k)). eexists. cbn [withThread withQueue w_kq]. rewrite updZ_same. split; [reflexivity|auto].
Qed.
Theorem undisturbed os w p s ql mt ls w' ob : kexec handle sane os w -> runs os p s ql mt -> (forall t, listed s t -> worked os p t) ->
  Forall (fun l => sane l /\ spares p l) ls -> krun handle w ls = Some (w', ob) -> ~ In (Ended p) ob.
Proof.
  intros X R W F E. assert (OW : forall t, listed s t -> owns w p t) by (intros t L; eapply worked_owns; eauto). clear W.
  revert os w ob X R F E OW. induction ls as [|l ls IH]; intros os w ob X R F E OW; cbn [krun] in E; [injection E as <- <-; intros []|].
  inversion F as [|x y (SA & SP) F']; subst. destruct (kstep handle w l) as [(w1, o1)|] eqn:S; [|discriminate]. destruct (krun handle w1 ls) as [(w2, o2)|] eqn:Rn; [|discriminate].
  injection E as <- <-. destruct (exec_inv handle sane os w (fun _ H => H) X) as (I & O). assert (D := steps_do handle os w l w1 o1 I SA S).
  assert (X1 : kexec handle sane (os ++ o1) w1) by (econstructor; eauto).
  assert (NE : ~ In (Ended p) o1).
  { intros H. destruct (runs_proc handle os w p s ql mt X R) as (P & LT). clear - D H SP OW LT.
    destruct D as [p0 s0 ql0 mt0 qs P Q|p0 t0 ql0 mt0 th c r w' fi P T TD C|p0 t0 ql0 mt0 th P T TD NO|k ql0 mt0 th pk r id ids h K P T TD IB W QD NV|l p0 ql0 mt0 P SP'|q0 h pk k th ql0 mt0 K T P Rg XX|l q0 pk]; try (destruct H as [H|[]]; discriminate).
    - destruct H.
    - destruct H as [H|[]]. injection H as ->. apply NO. apply OW. apply LT. rewrite T. discriminate.
    - destruct H as [H|[]]. injection H as ->. contradiction. }
  rewrite in_app_iff. intros [H|H]; auto. revert H. apply (IH (os ++ o1) w1 o2); auto.
  - apply runs_app; auto.
  - intros t L. eapply owns_keep; eauto.
Qed.

(** ** Two with the same queue *)
Lemma step_todo w p t ql mt th c r : w_proc w p = Some (ql, mt) -> w_thr w p t = Some th -> t_todo th = c :: r ->
  kstep handle w (KTurn p t) = let (w', f) := config w p t c in Some (withThread w' p t (mkT r (if f then t_inbox th else t_inbox th ++ [Err])), []).
Proof. intros P T TD. cbn [kstep]. rewrite P, T. unfold turn. rewrite TD. reflexivity. Qed.

Lemma doomed w p t ql mt k : w_proc w p = Some (ql, mt) -> w_thr w p t = Some (mkT (setup ql mt t) []) -> w_kq w (number16 t) = Some k -> own k p t = false ->
  exists w', krun handle w (repeat (KTurn p t) 6) = Some (w', [Ended p]).
Proof.
  intros P T K O. cbn [repeat krun].
  rewrite (step_todo w p t ql mt _ _ _ P T eq_refl). cbn [config t_inbox app].
  set (w1 := withThread w p t _). assert (T1 : w_thr w1 p t = Some (mkT (skipn 1 (setup ql mt t)) [])) by apply updT_same.
  rewrite (step_todo w1 p t ql mt _ _ _ P T1 eq_refl). cbn [config t_inbox app].
  set (w2 := withThread w1 p t _). assert (T2 : w_thr w2 p t = Some (mkT (skipn 2 (setup ql mt t)) [])) by apply updT_same.
  rewrite (step_todo w2 p t ql mt _ _ _ P T2 eq_refl). cbn [config t_inbox app]. change (w_kq w2 (t mod 65536)) with (w_kq w (number16 t)). rewrite K.
  set (w3 := withThread w2 p t _). assert (T3 : w_thr w3 p t = Some (mkT (skipn 3 (setup ql mt t)) [Err])) by apply updT_same.
  rewrite (step_todo w3 p t ql mt _ _ _ P T3 eq_refl). cbn [config t_inbox app]. change (w_kq w3 (t mod 65536)) with (w_kq w (number16 t)). rewrite K, O.
  set (w4 := withThread w3 p t _). assert (T4 : w_thr w4 p t = Some (mkT (skipn 4 (setup ql mt t)) [Err; Err])) by apply updT_same.
  rewrite (step_todo w4 p t ql mt _ _ _ P T4 eq_refl). cbn [config t_inbox app]. change (w_kq w4 (t mod 65536)) with (w_kq w (number16 t)). rewrite K, O.
  set (w5 := withThread w4 p t _). assert (T5 : w_thr w5 p t = Some (mkT [] [Err; Err; Err])) by apply updT_same.
  cbn [kstep]. change (w_proc w5 p) with (w_proc w p). rewrite P, T5. cbn [turn t_todo t_inbox]. eauto.
Qed.

Lemma started_at w p s ql mt t : w_proc w p = None -> listed s t -> exists qs,
  kstep handle w (KStart p s ql mt) = Some (started w p ql mt qs, [Started p s ql mt]) /\ w_proc (started w p ql mt qs) p = Some (ql, mt) /\
  forall j, listed s j -> w_thr (started w p ql mt qs) p j = Some (mkT (setup ql mt j) []).
Proof.
  intros P (a & b & Q & R). destruct (listed_queues s a b Q) as (qs & E & _ & L). exists qs. cbn [kstep]. rewrite P, E. split; [reflexivity|]. split; [apply updZ_same|].
  intros j J. cbn [started w_thr]. rewrite Z.eqb_refl. apply L in J. apply existsb_in in J. rewrite J. reflexivity.
Qed.

Theorem second os w p p' s t t' ql mt : kexec handle sane os w -> worked os p' t' -> (forall a b c, ~ runs os p a b c) -> listed s t -> number16 t = number16 t' ->
  exists w', krun handle w (KStart p s ql mt :: repeat (KTurn p t) 6) = Some (w', [Started p s ql mt; Ended p]).
Proof.
  intros X W NR L E. destruct (exec_inv handle sane os w (fun _ H => H) X) as (I & O). assert (OW := worked_owns os w p' t' X W).
  assert (P : w_proc w p = None). { destruct (w_proc w p) as [(a, b)|] eqn:P; auto. destruct (v_proc os w I p a b P) as (_ & s' & R & _). destruct (NR _ _ _ R). }
  destruct (owner_queue os w p' t' I OW) as (k & K & KP & KT).
  assert (NP : p' <> p). { intros ->. destruct (v_own os w I _ k K) as (_ & x & a & b & P' & _). congruence. }
  destruct (started_at w p s ql mt t P L) as (qs & S & P1 & T1). destruct (doomed (started w p ql mt qs) p t ql mt k P1 (T1 t L)) as (w' & D).
  - cbn [started w_kq]. rewrite E. auto.
  - unfold own. rewrite KP. destruct (Z.eqb_spec p' p); [contradiction|reflexivity].
  - exists w'. cbn [krun]. rewrite S, D. reflexivity.
Qed.

(** ** More than 65536 queues *)
Lemma binds w p t ql mt : w_proc w p = Some (ql, mt) -> w_thr w p t = Some (mkT (setup ql mt t) []) -> w_kq w (number16 t) = None ->
  exists w', krun handle w (repeat (KTurn p t) 5) = Some (w', []) /\ w_proc w' = w_proc w /\ (forall j, j <> t -> w_thr w' p j = w_thr w p j) /\
    exists k, w_kq w' (number16 t) = Some k /\ k_proc k = p /\ k_thr k = t.
Proof.
  intros P T K. cbn [repeat krun].
  rewrite (step_todo w p t ql mt _ _ _ P T eq_refl). cbn [config t_inbox app].
  set (w1 := withThread w p t _). assert (T1 : w_thr w1 p t = Some (mkT (skipn 1 (setup ql mt t)) [])) by apply updT_same.
  rewrite (step_todo w1 p t ql mt _ _ _ P T1 eq_refl). cbn [config t_inbox app].
  set (w2 := withThread w1 p t _). assert (T2 : w_thr w2 p t = Some (mkT (skipn 2 (setup ql mt t)) [])) by apply updT_same.
  rewrite (step_todo w2 p t ql mt _ _ _ P T2 eq_refl). cbn [config t_inbox app]. change (w_kq w2 (t mod 65536)) with (w_kq w (number16 t)). rewrite K.
  set (w3 := withThread (withQueue w2 _ _) p t _). assert (T3 : w_thr w3 p t = Some (mkT (skipn 3 (setup ql mt t)) [])) by apply updT_same.
  rewrite (step_todo w3 p t ql mt _ _ _ P T3 eq_refl). cbn [config t_inbox app].
  assert (K3 : w_kq w3 (t mod 65536) = Some (mkK p t None false 1024 [])) by apply updZ_same. rewrite K3. unfold own at 1. cbn [k_proc k_thr]. rewrite !Z.eqb_refl. cbn [andb].
  set (w4 := withThread (withQueue w3 _ _) p t _). assert (T4 : w_thr w4 p t = Some (mkT (skipn 4 (setup ql mt t)) [])) by apply updT_same.
  rewrite (step_todo w4 p t ql mt _ _ _ P T4 eq_refl). cbn [config t_inbox app].
  assert (K4 : exists k, w_kq w4 (t mod 65536) = Some k /\ k_proc k = p /\ k_thr k = t). { eexists. split; [apply updZ_same|]. auto. } destruct K4 as (k & K4 & KP & KT).
  rewrite K4. unfold own at 1. rewrite KP, KT, !Z.eqb_refl. cbn [andb]. eexists. split; [reflexivity|]. split; [reflexivity|]. split.
  - intros j J. cbn [withThread withQueue w_thr w4 w3 w2 w1]. rewrite !updT_other by (intros (_ & X); contradiction). reflexivity.
  - eexists. split; [cbn [withThread withQueue w_kq]; apply updZ_same|]. auto.
Qed.
Lemma krun_app w l1 l2 w1 o1 w2 o2 : krun handle w l1 = Some (w1, o1) -> krun handle w1 l2 = Some (w2, o2) -> krun handle w (l1 ++ l2) = Some (w2, o1 ++ o2).
Proof.
  revert w o1. induction l1 as [|l l1 IH]; intros w o1 A B; cbn [krun app] in *; [injection A as -> <-; auto|].
  destruct (kstep handle w l) as [(w3, o3)|]; [|discriminate]. destruct (krun handle w3 l1) as [(w4, o4)|] eqn:R; [|discriminate]. injection A as -> <-.
  rewrite (IH w3 o4 R B). rewrite app_assoc. reflexivity.
Qed.
Theorem wraps s a b p ql mt : queue_text s a b -> a + 65536 <= b ->
  exists w', krun handle kstart (KStart p s ql mt :: repeat (KTurn p a) 5 ++ repeat (KTurn p (a + 65536)) 6) = Some (w', [Started p s ql mt; Ended p]).
Proof.
  intros Q R. assert (La : listed s a) by (exists a, b; split; auto; lia). assert (Lb : listed s (a + 65536)) by (exists a, b; split; auto; lia).
  destruct (started_at kstart p s ql mt a eq_refl La) as (qs & S & P1 & T1).
  destruct (binds (started kstart p ql mt qs) p a ql mt P1 (T1 a La) eq_refl) as (w1 & B & PB & TB & k & K & KP & KT).
  assert (N : number16 (a + 65536) = number16 a) by (unfold number16; rewrite <- (Z_mod_plus_full a 1 65536); f_equal; lia).
  destruct (doomed w1 p (a + 65536) ql mt k) as (w' & D).
  - rewrite PB. auto.
  - rewrite TB by lia. apply T1. auto.
  - rewrite N. auto.
  - unfold own. rewrite KT. destruct (Z.eqb_spec a (a + 65536)); [lia|]. apply andb_false_r.
  - exists w'. cbn [krun]. rewrite S. rewrite (krun_app _ _ _ _ _ _ _ B D). reflexivity.
Qed.
End H.

(** ** The size of the socket's buffer *)
Lemma land_page n : 0 <= n < 2 ^ 32 -> Z.land n (u32 (Z.lnot 4095)) = n / 4096 * 4096.
Proof.
  intros N. replace (n / 4096 * 4096) with (Z.shiftl (Z.shiftr n 12) 12) by (rewrite Z.shiftr_div_pow2, Z.shiftl_mul_pow2 by lia; reflexivity).
  change (u32 (Z.lnot 4095)) with 4294963200. apply Z.bits_inj'. intros i I. rewrite Z.land_spec.
  replace 4294963200 with (Z.shiftl (Z.ones 20) 12) by reflexivity. rewrite !Z.shiftl_spec by lia.
  destruct (Z.ltb_spec i 12).
  - rewrite (Z.testbit_neg_r (Z.ones 20)), (Z.testbit_neg_r (Z.shiftr n 12)) by lia. apply andb_false_r.
  - rewrite Z.shiftr_spec by lia. replace (i - 12 + 12) with i by lia. destruct (Z.ltb_spec i 32).
    + rewrite Z.ones_spec_low by lia. apply andb_true_r.
    + rewrite Z.ones_spec_high by lia. rewrite andb_false_r. symmetry. apply Z.testbit_false; [lia|]. rewrite Z.div_small; [reflexivity|].
      split; [lia|]. apply Z.lt_le_trans with (2 ^ 32); [lia|]. apply Z.pow_le_mono_r; lia.
Qed.
Theorem buffer qlen mtu : 0 <= qlen -> 0 <= mtu -> qlen * mtu < 2 ^ 32 -> newSize qlen mtu = qlen * mtu / 2 / 4096 * 4096.
Proof.
  intros A B C. assert (0 <= qlen * mtu) by nia. unfold newSize. unfold u32 at 1. replace (qlen * mtu mod two32) with (qlen * mtu) by (symmetry; apply Z.mod_small; unfold two32; lia).
  assert (D : 0 <= qlen * mtu / 2 < 2 ^ 31) by (split; [apply Z.div_pos; lia|apply Z.div_lt_upper_bound; lia]).
  rewrite land_page by lia. set (n := qlen * mtu / 2) in *. assert (n / 4096 * 4096 <= n) by (rewrite Z.mul_comm; apply Z.mul_div_le; lia).
  assert (0 <= n / 4096) by (apply Z.div_pos; lia). unfold s32, u32, two32. cbv zeta. rewrite Z.mod_small by lia. destruct (_ <? _) eqn:E; lia.
Qed.
