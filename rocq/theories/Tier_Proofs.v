(** Fragments meet in one load-balancer, whichever they arrive at (C89). *)
From Coq Require Import String.
From Verif Require Import Base Lists IpKey_Model IpKey_Spec Maglev_Model Flow_Model Remote_Model FlowLb_Model FlowLb_Spec FlowLb_Proofs FlowLb4_Proofs Lb_Model Lb_Spec
  Lb_Proofs Steer_Spec Steer_Proofs Steer2_Proofs Tier_Model Tier_Spec.
From Verif Require Frag_Model Frag_Spec Frag2_Proofs FragVals_Proofs Steer3_Proofs.

(** ** Verdicts: a target of an object, or the mark of the tier *)
Section Verdicts.
Variable A : Z -> Prop.
Definition clean (s : state) : Prop := forall a o, deref s a = Some o -> Forall A (mactive (t_mem s (lb_region o))).
Variable E : state -> Prop.
Hypothesis EC : forall s, E s -> clean s.
Variable V : Z -> Prop.
Fixpoint outc (p : prog) : Prop :=
  match p with
  | Ret (Verdict v) => V v
  | Ret _ => True
  | Act _ f => forall s, E s -> FragVals_Proofs.fvals A (t_ft s) -> outcr (f s)
  end
with outcr (r : result) : Prop :=
  match r with
  | Next _ s' p => FragVals_Proofs.fvals A (t_ft s') /\ outc p
  | _ => True
  end.
Lemma outc_act l f : (forall s, E s -> FragVals_Proofs.fvals A (t_ft s) -> outcr (f s)) -> outc (Act l f).
Proof. auto. Qed.
Lemma outc_stop : outc stop.
Proof. cbn. auto. Qed.
Lemma outc_release l a k : outc k -> outc (release l a k).
Proof.
  intros K. unfold release. destruct (a =? 0); auto. apply outc_act. intros s W F. destruct (deref s a) as [o|]; [|exact I].
  destruct (_ <? 0); [exact I|]. destruct (_ =? 0); (split; [exact F|]); [|exact K]. apply outc_act. clear s W F o. intros s W F.
  destruct (deref s a) as [o|]; [|exact I]. destruct (unlink _ _ _) as [l'|]; [|exact I]. split; [exact F|]. apply outc_act.
  clear s W F o l'. intros s W F. destruct (deref s a) as [o|]; [|exact I]. split; [exact F|exact K].
Qed.
Lemma outc_trace h a p : outc p -> outc (traceTarget h a p).
Proof.
  intros K. unfold traceTarget. destruct (h_trace h); auto. apply outc_act. intros s W F. destruct (deref s a); [|exact I]. split; [exact F|exact K].
Qed.
Lemma outc_lookup h k eth data u kont : (forall a u', outc (kont a u')) -> outc (lookup h k eth data u kont).
Proof.
  intros K. apply outc_act. intros s W F. destruct (flowLookup _ _ _ _ _ _) as [[a u']| | |]; try exact I.
  destruct (a =? 0); [split; [exact F|apply K]|]. destruct (lockRef s a) as [s'|] eqn:EL; [|exact I].
  cbn [outcr]. split; [rewrite (lockRef_ft _ _ _ EL); exact F|apply K].
Qed.
Lemma outc_read reg hash k :
  (forall s r i, E s -> reg s = Some r -> znth (mlookup (t_mem s r)) (hash mod mM (t_mem s r)) = Some i -> i < 0 -> outc (k i)) ->
  (forall s r i s' r' fw, E s -> reg s = Some r -> znth (mlookup (t_mem s r)) (hash mod mM (t_mem s r)) = Some i -> 0 <= i ->
     E s' -> reg s' = Some r' -> znth (mactive (t_mem s' r')) i = Some fw -> outc (k fw)) ->
  outc (readTable reg hash k).
Proof.
  intros HN HP. apply outc_act. intros s W F. destruct (reg s) as [r|] eqn:ER; [|exact I]. destruct (mM (t_mem s r) =? 0); [exact I|].
  unfold aget at 1. destruct (znth (mlookup (t_mem s r)) _) as [i|] eqn:EI; [|exact I]. destruct (Z.ltb_spec i 0) as [N|N].
  - split; [exact F|]. eapply HN; eauto.
  - split; [exact F|]. apply outc_act. intros s' W' F'. destruct (reg s') as [r'|] eqn:ER'; [|exact I]. unfold aget.
    destruct (znth (mactive (t_mem s' r')) i) as [fw|] eqn:EF; [|exact I]. split; [exact F'|]. exact (HP s r i s' r' fw W ER EI N W' ER' EF).
Qed.
Hypothesis AV : forall v, A v -> V v.
Hypothesis Aneg : forall v, v < 0 -> A v.
Lemma outc_first h now done k fi fw : A fw -> outc (firstFragment h now done k fi fw).
Proof.
  intros AF. destruct fi as [id|]; [|apply outc_stop]. apply outc_act. intros s W F.
  match goal with |- context [Frag_Model.call_op ?g ?s ?c ?d] => destruct (Frag_Model.call_op g s c d) as [[ft ob]| | |] eqn:EO; try exact I end.
  destruct (retOf ob) as [[rc v]|] eqn:ER; [|exact I]. destruct (FragVals_Proofs.call_vals A _ _ _ _ _ _ EO F AF) as (F' & _). split; [exact F'|].
  cbn [outc]. apply AV. destruct (rc =? 0); [exact AF|]. apply Aneg. lia.
Qed.
Lemma outc_other h now done k data : outc (otherFragment h now done k data).
Proof.
  apply outc_act. intros s W F.
  match goal with |- context [Frag_Model.call_op ?g ?s ?c ?d] => destruct (Frag_Model.call_op g s c d) as [[ft ob]| | |] eqn:EO; try exact I end.
  destruct (retOf ob) as [[rc v]|] eqn:ER; [|exact I]. destruct (FragVals_Proofs.call_vals A _ _ _ _ _ _ EO F Logic.I) as (F' & OK).
  assert (N1 : V (-1)) by (apply AV, Aneg; lia).
  destruct rc; [destruct v as [v|]; [|exact I]| |]; (split; [exact F'|]); cbn [outc]; auto.
  apply AV. destruct (retOf_in _ _ _ ER) as (k0 & IN). exact (OK _ _ _ IN).
Qed.
Lemma outc_forward h now done rc k fi a : A (h_nolb h) -> A (h_notargets h) -> outc (forward h now done rc k fi a).
Proof.
  intros A1 A2. unfold forward. destruct (a =? 0); [cbn; auto|].
  assert (K : forall fw, (0 <= fw -> A fw) -> outc (release Quiet a (traceTarget h a (
      if fw <? 0 then Ret (Verdict (h_notargets h)) else if Z.land rc 1 =? 0 then Ret (Verdict fw) else firstFragment h now done k fi fw)))).
  { intros fw AF. apply outc_release, outc_trace. destruct (Z.ltb_spec fw 0); [cbn; auto|]. destruct (_ =? 0); [cbn; auto|apply outc_first; auto]. }
  apply outc_read.
  - intros s r i _ _ _ N. apply K. lia.
  - intros s r i s' r' fw _ _ _ _ W' R' EF. apply K. intros _. unfold lbRegion in R'. destruct (deref s' a) as [o|] eqn:ED; [|discriminate]. injection R' as <-.
    pose proof (EC s' W' a o ED) as FA. rewrite Forall_forall in FA. apply FA. apply (znth_In _ _ _ _ EF).
Qed.
Lemma outc_classify h now done eth data rc k fi : A (h_nolb h) -> A (h_notargets h) -> outc (classify h now done eth data rc k fi).
Proof.
  intros A1 A2. apply outc_lookup. intros a u. destruct (_ && _); [|apply outc_forward; auto].
  destruct (getHashKey _ u eth data) as [[[[rc' k'] fi']|]| | |]; try apply outc_stop; [|cbn; apply AV, Aneg; lia].
  apply outc_lookup. intros. apply outc_forward; auto.
Qed.
Lemma outc_anytier h k local : (forall v, V v) -> outc local -> outc (tier h k local).
Proof.
  intros VA L. unfold tier. destruct (h_tier h) as [[r ow]|]; [|exact L].
  assert (K : forall fw, outc (if (0 <=? fw) && negb (fw =? ow) then Ret (Verdict fw) else local)) by (intros fw; destruct (_ && _); [apply VA|exact L]).
  apply outc_read; intros; apply K.
Qed.
Lemma outc_tier h T d k local : (forall s, E s -> tier_table h T s) -> d_src d = k_src k -> d_dst d = k_dst k ->
  (forall v, tmark h T d = Some v -> V v) -> (tmark h T d = None -> outc local) -> outc (tier h k local).
Proof.
  intros ET S D VT L. unfold tier. unfold tmark in *. destruct (h_tier h) as [[r ow]|] eqn:EH; [|apply L; reflexivity].
  assert (HK : hashKeyAddresses k = djb2 (d_src d ++ d_dst d)) by (unfold hashKeyAddresses; rewrite S, D; auto). rewrite <- HK in *.
  apply outc_read.
  - intros s r' i W R ZI N. injection R as <-. rewrite (ET _ W _ _ EH) in ZI. destruct (Z.leb_spec 0 i); [lia|]. apply L. unfold table_mark. rewrite ZI.
    destruct (Z.ltb_spec i 0); [reflexivity|lia].
  - intros s r' i s' r'' fw W R ZI P W' R' ZA. injection R as <-. injection R' as <-. rewrite (ET _ W _ _ EH) in ZI. rewrite (ET _ W' _ _ EH) in ZA.
    unfold table_mark in *. rewrite ZI, ZA in *. destruct (Z.ltb_spec i 0); [lia|]. destruct (Z.ltb_spec fw 0) as [NF|NF].
    + destruct (Z.leb_spec 0 fw); [lia|]. apply L. reflexivity.
    + destruct (Z.leb_spec 0 fw); [|lia]. destruct (Z.eqb_spec fw ow) as [EO|NO]; cbn [andb negb outc]; auto.
Qed.
Lemma outc_packet h now done eth data : A (h_nolb h) -> A (h_notargets h) ->
  (forall rc k fi local, getHashKey (S (length data)) 0 eth data = Ok (Some (rc, k, fi)) -> Z.land rc 3 <> 0 -> outc local -> outc (tier h k local)) ->
  outc (packet h now done eth data).
Proof.
  intros A1 A2 HT. unfold packet. destruct (getHashKey _ 0 eth data) as [[[[rc k] fi]|]| | |] eqn:EG; try apply outc_stop; [|cbn; apply AV, Aneg; lia].
  destruct (Z.eqb_spec (Z.land rc 3) 0) as [Z3|N3]; [apply outc_classify; auto|].
  eapply HT; eauto. destruct (_ =? 0); [apply outc_other|apply outc_classify; auto].
Qed.
Lemma outc_lb g now done eth data : A (h_notargets (l_h g)) ->
  (forall s, E s -> Forall A (mactive (t_mem s (l_target g)))) ->
  (forall rc k fi local, getHashKey (S (length data)) (l_encap g) eth data = Ok (Some (rc, k, fi)) -> Z.land rc 3 <> 0 -> outc local -> outc (tier (l_h g) k local)) ->
  outc (lbPacket g now done eth data).
Proof.
  intros A2 EA HT. unfold lbPacket. destruct (getHashKey _ (l_encap g) eth data) as [[[[rc k] fi]|]| | |] eqn:EG; try apply outc_stop; [|cbn; apply AV, Aneg; lia].
  assert (B : outc (balance g now done rc k fi)).
  { assert (K : forall fw, (0 <= fw -> A fw) -> outc (if fw <? 0 then Ret (Verdict (h_notargets (l_h g))) else if Z.land rc 1 =? 0 then Ret (Verdict fw) else firstFragment (l_h g) now done k fi fw)).
    { intros fw AF. destruct (Z.ltb_spec fw 0); [cbn; auto|]. destruct (_ =? 0); [cbn; auto|apply outc_first; auto]. }
    apply outc_read.
    - intros s r i _ _ _ N. apply K. lia.
    - intros s r i s' r' fw _ _ _ _ W' R' EF. apply K. intros _. injection R' as <-.
      pose proof (EA s' W') as FA. rewrite Forall_forall in FA. apply FA. apply (znth_In _ _ _ _ EF). }
  destruct (Z.eqb_spec (Z.land rc 3) 0) as [Z3|N3]; [exact B|].
  assert (L : outc (if Z.land rc 1 =? 0 then otherFragment (l_h g) now done k data else balance g now done rc k fi)).
  { destruct (_ =? 0); [apply outc_other|exact B]. }
  eapply HT; eauto.
Qed.
End Verdicts.

(** A packet that is not whole is the first or another fragment. *)
Lemma frag_some enc eth data rc k fi : getHashKey (S (length data)) enc eth data = Ok (Some (rc, k, fi)) -> Z.land rc 3 <> 0 ->
  exists b d, frag_of enc eth data b d /\ d_src d = k_src k /\ d_dst d = k_dst k.
Proof.
  intros EG N3. destruct (Z.eqb_spec (Z.land rc 1) 0) as [Z1|N1].
  - exists false, (mkD (k_src k) (k_dst k) (k_id k)). split; auto. exists rc, k, fi. cbn. auto 6.
  - destruct fi as [id|]; [|exfalso; apply N1; apply (fi_some _ _ _ _ _ _ EG)]. exists true, (mkD (k_src k) (k_dst k) id). split; auto. exists rc, k, (Some id). cbn. auto 6.
Qed.
