(** Fragments meet in one load-balancer, whichever they arrive at (C89): all packets. *)
From Coq Require Import String.
From Verif Require Import Base Lists IpKey_Model IpKey_Spec Maglev_Model Flow_Model Remote_Model FlowLb_Model FlowLb_Spec FlowLb_Proofs FlowLb4_Proofs Lb_Model Lb_Spec
  Lb_Proofs Lb2_Proofs Steer_Spec Steer_Proofs Steer2_Proofs Steer3_Proofs Tier_Model Tier_Spec Tier_Proofs Tier2_Proofs.
From Verif Require Frag_Model Frag_Spec FragVals_Proofs.

Lemma znth_zupd_in {A} (l : list A) p x y : In y (zupd l p x) -> y = x \/ In y l.
Proof.
  intros H. apply In_nth_error in H. destruct H as (n & H). destruct (Z.eq_dec p (Z.of_nat n)) as [->|N].
  - destruct (Z_lt_dec (Z.of_nat n) (zlen l)) as [L|L].
    + assert (X : znth (zupd l (Z.of_nat n) x) (Z.of_nat n) = Some x) by (apply znth_zupd_eq; lia).
      unfold znth in X. destruct (Z.ltb_spec (Z.of_nat n) 0); [lia|]. rewrite Nat2Z.id in X. left. congruence.
    + exfalso. assert (n < length (zupd l (Z.of_nat n) x))%nat by (apply nth_error_Some; congruence). rewrite zupd_length in *. unfold zlen in L. lia.
  - right. assert (X : znth (zupd l p x) (Z.of_nat n) = znth l (Z.of_nat n)) by (apply znth_zupd_neq; auto).
    unfold znth in X. destruct (Z.ltb_spec (Z.of_nat n) 0); [lia|]. rewrite Nat2Z.id in X. rewrite H in X. symmetry in X. eapply nth_error_In; eauto.
Qed.
Lemma in_zupd_new {A} (l : list A) p x y : znth l p = Some y -> In x (zupd l p x).
Proof. intros H. apply znth_In with (i := p). apply znth_zupd_eq. eapply znth_some_range; eauto. Qed.
Lemma in_zupd_old {A} (l : list A) p x y z : znth l p = Some y -> In z l -> z = y \/ In z (zupd l p x).
Proof.
  intros H I. apply In_nth_error in I. destruct I as (n & I). destruct (Z.eq_dec p (Z.of_nat n)) as [->|N].
  - unfold znth in H. destruct (Z.ltb_spec (Z.of_nat n) 0); [lia|]. rewrite Nat2Z.id in H. left. congruence.
  - right. apply znth_In with (i := Z.of_nat n). rewrite znth_zupd_neq by auto. unfold znth. destruct (Z.ltb_spec (Z.of_nat n) 0); [lia|]. rewrite Nat2Z.id. auto.
Qed.

Section Tier.
Variables (H : Z -> kind) (node : Z -> bool) (peer : Z -> option Z) (enc : Z).
Hypothesis S0 : tier_setup H node peer enc.
Notation env := (tier_marks H node peer).

Definition pinv (s : net) (arr : Z -> list (Z * list Z)) (q : pkt) : Prop :=
  match q_at q with
  | Wire i | Gone i => node i = true
  | Inside i n => node i = true /\ znth (arr i) n = Some (q_eth q, q_data q)
  | Sent i v => node i = true /\ 0 <= v /\ peer v = None /\
      exists n, znth (arr i) n = Some (q_eth q, q_data q) /\ znth (w_pk (n_node s i)) n = Some (Ret (Verdict v))
  end.
Definition wit (s : net) (arr : Z -> list (Z * list Z)) : Prop :=
  forall i n e d, node i = true -> znth (arr i) n = Some (e, d) ->
  exists q, In q (n_pk s) /\ q_eth q = e /\ q_data q = d /\
    (q_at q = Inside i n \/ exists x, znth (w_pk (n_node s i)) n = Some (Ret (Verdict x)) /\ (x < 0 \/ peer x <> None \/ q_at q = Sent i x)).
Definition NI (s : net) (arr : Z -> list (Z * list Z)) : Prop :=
  (forall i, node i = true -> ninv peer (H i) (n_node s i) (arr i)) /\ (forall q, In q (n_pk s) -> pinv s arr q) /\ wit s arr.

Lemma base_of s i : env s -> node i = true -> base peer (H i) (w_st (n_node s i)).
Proof. intros E N. destruct (E i N) as (A & B). split; auto. Qed.

(** A packet that leaves *)
Lemma leave_ok s arr q i n v : node i = true -> znth (arr i) n = Some (q_eth q, q_data q) ->
  znth (w_pk (n_node s i)) n = Some (Ret (Verdict v)) -> pinv s arr (route peer q i v).
Proof.
  intros N EA EV. unfold route. destruct (Z.ltb_spec v 0) as [NEG|POS]; [exact N|]. destruct (peer v) as [j|] eqn:EP.
  - apply (ts_peer _ _ _ _ S0 _ _ EP).
  - unfold pinv. cbn [placed q_at]. split; [auto|]. split; [auto|]. split; [auto|]. exists n. auto.
Qed.
Lemma NI_start shm mem : NI (nstart H shm mem) (fun _ => []).
Proof.
  split; [intros i N; apply ninv_start|]. split; [intros q []|]. intros i n e d _ X. unfold znth in X. destruct (n <? 0); [discriminate|]. destruct (Z.to_nat n); discriminate.
Qed.
(** A process makes a step *)
Lemma NI_node s arr i m w ev l : env s -> NI s arr -> node i = true -> pstep (H i) (n_node s i) m = Some (Cont w ev) ->
  let arr' := fun j => if j =? i then arr i ++ taken m else arr j in
  (forall j, node j = true -> ninv peer (H j) (set_node (n_node s) i w j) (arr' j)) /\
  (forall q, pinv s arr q -> pinv (mkNet (set_node (n_node s) i w) l) arr' q) /\
  (forall j n e d, node j = true -> znth (arr j) n = Some (e, d) -> znth (arr' j) n = Some (e, d) /\
     forall x, znth (w_pk (n_node s j)) n = Some (Ret x) -> znth (w_pk (set_node (n_node s) i w j)) n = Some (Ret x)).
Proof.
  intros E (NV & PV & WV) N ST arr'.
  destruct (ninv_step peer (H i) _ _ _ _ _ (ts_frag _ _ _ _ S0 i N) (proj1 (ts_none _ _ _ _ S0 i N)) (proj2 (ts_none _ _ _ _ S0 i N)) (base_of _ _ E N) (NV i N) ST) as (V' & G1 & G2).
  assert (GA : forall j n x, znth (arr j) n = Some x -> znth (arr' j) n = Some x).
  { intros j n x X. unfold arr'. destruct (Z.eqb_spec j i) as [->|]; auto. }
  assert (GP : forall j n x, znth (w_pk (n_node s j)) n = Some (Ret x) -> znth (w_pk (set_node (n_node s) i w j)) n = Some (Ret x)).
  { intros j n x X. unfold set_node. destruct (Z.eqb_spec j i) as [->|]; auto. }
  split; [|split; [|split; auto]].
  - intros j NJ. unfold set_node, arr'. destruct (Z.eqb_spec j i) as [->|]; auto.
  - intros q. unfold pinv. cbn [n_node]. destruct (q_at q) as [j|j n|j v|j]; auto.
    + intros (A & B). auto.
    + intros (A & B & C & n & X & Y). repeat (split; [auto|]). exists n. auto.
Qed.
Lemma NI_step s arr m s' : env s -> NI s arr -> nstep H node peer s m = Some s' -> exists arr', NI s' arr'.
Proof.
  intros E I ST. pose proof I as (NV & PV & WV). destruct m as [i eth data|p now done|i m|p]; cbn [nstep] in ST.
  - destruct (node i) eqn:N; [|discriminate]. injection ST as <-. exists arr. split; [exact NV|]. split.
    + intros q X. cbn [n_pk] in X. apply in_app_or in X. destruct X as [X|[<-|[]]]; [apply (PV q X)|]. unfold pinv. cbn. auto.
    + intros j n e d NJ X. destruct (WV j n e d NJ X) as (q & IN & R). exists q. split; [apply in_or_app; auto|exact R].
  - destruct (znth (n_pk s) p) as [q|] eqn:EP; [|discriminate]. destruct (q_at q) as [i| | |] eqn:EQ; try discriminate.
    match type of ST with match ?x with _ => _ end = _ => destruct x as [[w ev| |]|] eqn:ES; try discriminate end. injection ST as <-.
    pose proof (PV q (znth_In _ _ _ _ EP)) as PQ. unfold pinv in PQ. rewrite EQ in PQ. rename PQ into N.
    set (q' := placed q (q_hops q) (Inside i (zlen (w_pk (n_node s i))))).
    destruct (NI_node s arr i _ w ev (zupd (n_pk s) p q') E I N ES) as (V' & P' & W').
    exists (fun j => if j =? i then arr i ++ taken (Arrive now done (q_eth q) (q_data q)) else arr j). cbn [taken] in *.
    destruct (NV i N) as ((_ & L & _) & _).
    assert (LAST : znth (arr i ++ [(q_eth q, q_data q)]) (zlen (w_pk (n_node s i))) = Some (q_eth q, q_data q)).
    { rewrite L. unfold znth, zlen. destruct (Z.ltb_spec (Z.of_nat (length (arr i))) 0); [lia|]. rewrite Nat2Z.id, nth_error_app2, Nat.sub_diag by lia. reflexivity. }
    split; [exact V'|]. split.
    + intros x X. cbn [n_pk] in X. apply znth_zupd_in in X. destruct X as [->|X]; [|apply P', PV, X].
      unfold pinv. cbn [q' placed q_at q_eth q_data]. split; [auto|]. rewrite Z.eqb_refl. exact LAST.
    + intros j n e d NJ X. cbn [n_pk n_node]. assert (OLD : znth (arr j) n = Some (e, d) \/ j = i /\ n = zlen (arr i) /\ (e, d) = (q_eth q, q_data q)).
      { destruct (Z.eqb_spec j i) as [->|]; [|auto]. destruct (znth_app2 _ _ _ _ X) as [?|(? & ?)]; auto. }
      destruct OLD as [O|(-> & -> & O)].
      * destruct (W' j n e d NJ O) as (_ & W2). destruct (WV j n e d NJ O) as (x & IN & E1 & E2 & R).
        destruct (in_zupd_old _ _ q' _ _ EP IN) as [->|IN'].
        -- exists q'. split; [eapply in_zupd_new; eauto|]. split; [auto|]. split; [auto|]. destruct R as [R|(v & R1 & R2)]; [congruence|].
           right. exists v. split; [apply W2; auto|]. destruct R2 as [?|[?|?]]; auto. congruence.
        -- exists x. split; [auto|]. split; [auto|]. split; [auto|]. destruct R as [R|(v & R1 & R2)]; [auto|]. right. exists v. split; [apply W2; auto|auto].
      * exists q'. split; [eapply in_zupd_new; eauto|]. injection O as -> ->. split; [auto|]. split; [auto|]. left. cbn. congruence.
  - assert (K : exists w ev, node i = true /\ pstep (H i) (n_node s i) m = Some (Cont w ev) /\ taken m = [] /\ s' = mkNet (set_node (n_node s) i w) (n_pk s)).
    { destruct m; try discriminate; (destruct (node i) eqn:N; [|discriminate]);
        (destruct (pstep (H i) (n_node s i) _) as [[w ev| |]|] eqn:ES; try discriminate); injection ST as <-; exists w, ev; auto. }
    destruct K as (w & ev & N & ES & TK & ->). destruct (NI_node s arr i m w ev (n_pk s) E I N ES) as (V' & P' & W').
    exists (fun j => if j =? i then arr i ++ taken m else arr j). split; [exact V'|]. split; [intros q X; apply P', PV, X|].
    intros j n e d NJ X. assert (O : znth (arr j) n = Some (e, d)) by (destruct (Z.eqb_spec j i) as [->|]; [rewrite TK, app_nil_r in X|]; auto).
    destruct (W' j n e d NJ O) as (_ & W2). destruct (WV j n e d NJ O) as (x & IN & E1 & E2 & R). exists x. split; [auto|]. split; [auto|]. split; [auto|].
    destruct R as [R|(v & R1 & R2)]; [auto|]. right. exists v. split; [apply W2; auto|auto].
  - destruct (znth (n_pk s) p) as [q|] eqn:EP; [|discriminate]. destruct (q_at q) as [|i n| |] eqn:EQ; try discriminate.
    destruct (znth (w_pk (n_node s i)) n) as [[[v|]|]|] eqn:EV; try discriminate. injection ST as <-.
    pose proof (PV q (znth_In _ _ _ _ EP)) as PQ. unfold pinv in PQ. rewrite EQ in PQ. destruct PQ as (N & EA).
    exists arr. split; [exact NV|]. split.
    + intros x X. cbn [n_pk] in X. apply znth_zupd_in in X. destruct X as [->|X]; [|apply (PV x X)]. apply (leave_ok s arr q i n v N EA EV).
    + intros j k e d NJ X. cbn [n_pk n_node]. destruct (WV j k e d NJ X) as (x & IN & E1 & E2 & R).
      destruct (in_zupd_old _ _ (route peer q i v) _ _ EP IN) as [->|IN']; [|exists x; auto].
      exists (route peer q i v). split; [eapply in_zupd_new; eauto|]. unfold route.
      destruct R as [R|(y & R1 & R2)].
      * rewrite EQ in R. injection R as <- <-. destruct (Z.ltb_spec v 0); [|destruct (peer v) eqn:EPV]; cbn; (split; [auto|]); (split; [auto|]); right; exists v; (split; [exact EV|]).
        -- auto.
        -- right. left. congruence.
        -- auto.
      * destruct R2 as [R2|[R2|R2]]; [| |congruence].
        -- destruct (v <? 0); [|destruct (peer v)]; cbn; (split; [auto|]); (split; [auto|]); right; exists y; auto.
        -- destruct (v <? 0); [|destruct (peer v)]; cbn; (split; [auto|]); (split; [auto|]); right; exists y; auto.
Qed.
Lemma NI_exec shm mem s : nexec H node peer env (nstart H shm mem) s -> env s /\ exists arr, NI s arr.
Proof.
  intros X. induction X as [E|s m s' X (E & arr & I) ST E'].
  - split; auto. eexists. apply NI_start.
  - split; auto. exact (NI_step s arr m s' E I ST).
Qed.

Lemma tier_steered shm mem s q d i v : nexec H node peer env (nstart H shm mem) s -> In q (n_pk s) -> fragment enc q false d -> q_at q = Sent i v ->
  exists f, In f (n_pk s) /\ fragment enc f true d /\ given s f i v.
Proof.
  intros X IN F L. destruct (NI_exec _ _ _ X) as (_ & arr & NV & PV & WV). specialize (PV q IN). unfold pinv in PV. rewrite L in PV.
  destruct PV as (N & POS & PN & n & EA & EV). destruct (NV i N) as (JJ & _). rewrite (ts_encap _ _ _ _ S0 i N) in JJ.
  destruct (Q_verdict _ _ _ _ _ _ _ _ _ _ JJ EV EA d F) as [C|[(_ & C)|(k & e & dt & A1 & A2 & A3)]]; [lia|contradiction|].
  destruct (WV i k e dt N A1) as (f & IF & <- & <- & R). exists f. split; [auto|]. split; [exact A2|].
  destruct R as [R|(x & R1 & R2)]; [right; eauto|]. assert (x = v) as -> by congruence. destruct R2 as [?|[?|?]]; [lia|contradiction|left; auto].
Qed.
End Tier.
