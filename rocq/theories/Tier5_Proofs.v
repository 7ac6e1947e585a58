(** Fragments meet in one load-balancer, whichever they arrive at (C89): when all see the same
    table of the tier. *)
From Coq Require Import String.
From Verif Require Import Base Lists IpKey_Model IpKey_Spec Maglev_Model Flow_Model Remote_Model FlowLb_Model FlowLb_Spec FlowLb_Proofs FlowLb4_Proofs Lb_Model Lb_Spec
  Lb_Proofs Lb2_Proofs Steer_Spec Steer_Proofs Steer2_Proofs Steer3_Proofs Tier_Model Tier_Spec Tier_Proofs Tier2_Proofs Tier3_Proofs.
From Verif Require Frag_Model Frag_Spec FragVals_Proofs.

(** What is known of a program stays known. *)
Lemma pstep_prog c w m w' ev n p : pstep c w m = Some (Cont w' ev) -> znth (w_pk w) n = Some p ->
  exists p', znth (w_pk w') n = Some p' /\ forall A (E : state -> Prop) V, E (w_st w) -> FragVals_Proofs.fvals A (t_ft (w_st w)) -> outc A E V p -> outc A E V p'.
Proof.
  intros ST EN. assert (RN : 0 <= n < zlen (w_pk w)) by (eapply znth_some_range; eauto).
  assert (SAME : forall s fl, exists p', znth (w_pk (mkW s fl (w_pk w))) n = Some p' /\
     forall A (E : state -> Prop) V, E (w_st w) -> FragVals_Proofs.fvals A (t_ft (w_st w)) -> outc A E V p -> outc A E V p') by (intros; exists p; auto).
  assert (MORE : forall s fl x, exists p', znth (w_pk (mkW s fl (w_pk w ++ [x]))) n = Some p' /\
     forall A (E : state -> Prop) V, E (w_st w) -> FragVals_Proofs.fvals A (t_ft (w_st w)) -> outc A E V p -> outc A E V p')
    by (intros; exists p; split; [apply znth_app_l; auto|auto]).
  assert (STEP : forall j l f ev' s' p' fl, znth (w_pk w) j = Some (Act l f) -> f (w_st w) = Next ev' s' p' ->
     exists p0, znth (w_pk (mkW s' fl (zupd (w_pk w) j p'))) n = Some p0 /\
     forall A (E : state -> Prop) V, E (w_st w) -> FragVals_Proofs.fvals A (t_ft (w_st w)) -> outc A E V p -> outc A E V p0).
  { intros j l f ev' s' p' fl EJ EF. cbn [w_pk]. destruct (Z.eq_dec j n) as [->|NE].
    - exists p'. split; [apply znth_zupd_eq; auto|]. intros A E V X FV O. assert (p = Act l f) as -> by congruence. cbn [outc] in O. specialize (O _ X FV). rewrite EF in O. apply O.
    - exists p. split; [rewrite znth_zupd_neq; auto|auto]. }
  destruct c as [h|g]; cbn [pstep] in ST.
  - destruct m as [now done eth data|cmd| |j|shm' mem']; cbn [step] in ST.
    + injection ST as <- <-. apply MORE.
    + destruct (idle (w_flow w)); [|discriminate]. injection ST as <- <-. apply SAME.
    + destruct (w_flow w) as [r|l f]; [discriminate|]. destruct (f (w_st w)) as [ev' s' p'| |]; try discriminate. injection ST as <- <-. apply SAME.
    + destruct (znth (w_pk w) j) as [[r|l f]|] eqn:EJ; try discriminate. destruct (f (w_st w)) as [ev' s' p'| |] eqn:EF; try discriminate. injection ST as <- <-. eapply STEP; eauto.
    + injection ST as <- <-. apply SAME.
  - destruct m as [now done eth data|cmd| |j|shm' mem']; cbn [plainMove lstep lw_st lw_pk] in ST; try discriminate.
    + injection ST as <- <-. apply MORE.
    + destruct (znth (w_pk w) j) as [[r|l f]|] eqn:EJ; try discriminate. destruct (f (w_st w)) as [ev' s' p'| |] eqn:EF; try discriminate. injection ST as <- <-. eapply STEP; eauto.
    + injection ST as <- <-. apply SAME.
Qed.
Lemma pstep_arrive c w now done eth data w' ev : pstep c w (Arrive now done eth data) = Some (Cont w' ev) -> znth (w_pk w') (zlen (w_pk w)) = Some (handler c now done eth data).
Proof.
  intros ST. assert (L : forall p, znth (w_pk w ++ [p]) (zlen (w_pk w)) = Some p).
  { intros p. unfold znth, zlen. destruct (Z.ltb_spec (Z.of_nat (length (w_pk w))) 0); [lia|]. rewrite Nat2Z.id, nth_error_app2, Nat.sub_diag by lia. reflexivity. }
  destruct c as [h|g]; cbn [pstep plainMove step lstep] in ST; injection ST as <- <-; apply L.
Qed.

Section Settle.
Variables (H : Z -> kind) (node : Z -> bool) (peer : Z -> option Z) (enc : Z) (T : mag).
Hypothesis S0 : tier_setup H node peer enc.
Notation env := (tier_env H node peer T).

Lemma tmark_home i d : node i = true ->
  tmark (opts (H i)) T d = match home_mark T d with Some fw => match own H i with Some o => if fw =? o then None else Some fw | None => None end | None => None end.
Proof.
  intros N. unfold tmark, own, home_mark. destruct (ts_own _ _ _ _ S0 i N) as (v & O & _). unfold own in O. destruct (h_tier (opts (H i))) as [[r o]|]; [|discriminate].
  destruct (table_mark T _); auto.
Qed.
Lemma mark_pos t hash v : table_mark t hash = Some v -> 0 <= v /\ In v (mactive t).
Proof.
  unfold table_mark. destruct (znth _ _) as [i|]; [|discriminate]. destruct (i <? 0); [discriminate|]. destruct (znth _ i) as [fw|] eqn:E; [|discriminate].
  destruct (Z.ltb_spec fw 0); [discriminate|]. intros X. injection X as <-. split; [auto|]. apply (znth_In _ _ _ _ E).
Qed.
Lemma tmark_some s i d v : env s -> node i = true -> tmark (opts (H i)) T d = Some v -> home_mark T d = Some v /\ 0 <= v /\ peer v <> None /\ own H i <> Some v.
Proof.
  intros EN N X. rewrite tmark_home in X by auto. destruct (home_mark T d) as [fw|] eqn:EH; [|discriminate]. destruct (own H i) as [o|] eqn:EO; [|discriminate].
  destruct (Z.eqb_spec fw o) as [|NE]; [discriminate|]. injection X as <-. split; auto. destruct (mark_pos _ _ _ EH) as (P & IN). split; [auto|].
  split; [|congruence]. destruct EN as (MK & TT). destruct (MK i N) as (M1 & _). unfold own in EO. destruct (h_tier (opts (H i))) as [[r o']|] eqn:ET; [|discriminate].
  specialize (M1 _ _ eq_refl). rewrite (TT i N _ _ ET) in M1. rewrite Forall_forall in M1. destruct (M1 _ IN); [lia|auto].
Qed.
Lemma tmark_none i d : node i = true -> tmark (opts (H i)) T d = None -> home_mark T d = None \/ home_mark T d = own H i.
Proof.
  intros N X. rewrite tmark_home in X by auto. destruct (ts_own _ _ _ _ S0 i N) as (v & O & _). rewrite O in *. destruct (home_mark T d) as [fw|]; auto.
  destruct (Z.eqb_spec fw v) as [E|E]; [right; congruence|discriminate].
Qed.

Variable s0 : net.
(** A packet that was before a load-balancer when the tables became the same, and the hops it had; one that
    was inside or had left, [late] *)
Definition late (p : Z) : bool := match znth (n_pk s0) p with Some q => match q_at q with Wire _ => false | _ => true end | None => false end.
Definition old_hops (p : Z) : Z := match znth (n_pk s0) p with Some q => q_hops q | None => 0 end.
Definition from (p : Z) : Z := old_hops p + if late p then 1 else 0.

Definition passed (q : pkt) (i : Z) : Prop := exists b d, fragment enc q b d /\ home_mark T d = own H i.
Definition hops_ok (p : Z) (q : pkt) (i : Z) : Prop := q_hops q = from p \/ q_hops q = from p + 1 /\ passed q i.
Definition settled (q : pkt) (i : Z) : Prop := forall b d, fragment enc q b d -> tmark (opts (H i)) T d = None.
Definition fresh (s : net) (p : Z) (q : pkt) : Prop :=
  match q_at q with
  | Wire i => node i = true /\ hops_ok p q i
  | Inside i n => node i = true /\ hops_ok p q i /\ exists x, znth (w_pk (n_node s i)) n = Some x /\ outc (outside peer) (senv peer (H i) T) (vnew peer (H i) T (q_eth q) (q_data q)) x
  | Sent i _ | Gone i => node i = true /\ hops_ok p q i /\ settled q i
  end.
(** Still where it was, or has left from there *)
Definition stale (p : Z) (q : pkt) : Prop := late p = true /\ q_hops q = old_hops p /\ match q_at q with Wire _ => False | _ => True end.
Definition same (p : Z) (q : pkt) : Prop := forall q0, znth (n_pk s0) p = Some q0 -> q_eth q = q_eth q0 /\ q_data q = q_data q0.
Definition SI (s : net) : Prop :=
  (exists arr, NI H node peer s arr) /\ zlen (n_pk s0) <= zlen (n_pk s) /\ forall p q, znth (n_pk s) p = Some q -> same p q /\ (stale p q \/ fresh s p q).

Lemma SI_start arr : NI H node peer s0 arr -> SI s0.
Proof.
  intros I. split; [eauto|]. split; [lia|]. intros p q X. split; [intros q0 Y; assert (q0 = q) as -> by congruence; auto|].
  destruct (q_at q) as [i| | |] eqn:EQ.
  - right. unfold fresh, hops_ok, from, old_hops, late. rewrite X, EQ. split; [|left; lia]. destruct I as (_ & PV & _). specialize (PV q (znth_In _ _ _ _ X)). unfold pinv in PV. rewrite EQ in PV. exact PV.
  - left. unfold stale, late, old_hops. rewrite X, EQ. auto.
  - left. unfold stale, late, old_hops. rewrite X, EQ. auto.
  - left. unfold stale, late, old_hops. rewrite X, EQ. auto.
Qed.
Lemma senv_of s i : env s -> node i = true -> senv peer (H i) T (w_st (n_node s i)).
Proof. intros (E & TT) N. split; [apply (base_of _ _ _ _ _ E N)|auto]. Qed.
(** A process makes a step *)
Lemma fresh_step s i m w ev l p q : env s -> (exists arr, NI H node peer s arr) -> node i = true -> pstep (H i) (n_node s i) m = Some (Cont w ev) ->
  fresh s p q -> fresh (mkNet (set_node (n_node s) i w) l) p q.
Proof.
  intros E (arr & NV & _) N ST. unfold fresh. cbn [n_node]. destruct (q_at q) as [j|j n|j v|j]; auto. intros (NJ & HO & x & EX & O). split; [auto|]. split; [auto|].
  unfold set_node. destruct (Z.eqb_spec j i) as [->|NE]; [|eauto]. destruct (pstep_prog _ _ _ _ _ _ _ ST EX) as (p' & EP & K). exists p'. split; [auto|].
  apply K; auto; [apply senv_of; auto|]. destruct (NV i N) as (_ & _ & FV & _). exact FV.
Qed.
Lemma znth_zupd_cases {A} (l : list A) p x n y : znth (zupd l p x) n = Some y -> n = p /\ y = x \/ n <> p /\ znth l n = Some y.
Proof.
  intros X. destruct (Z.eq_dec p n) as [->|NE]; [|rewrite znth_zupd_neq in X by auto; auto].
  pose proof (znth_some_range _ _ _ _ X) as R. unfold zlen in R. rewrite zupd_length in R. rewrite znth_zupd_eq in X by exact R. left. split; [auto|congruence].
Qed.
Lemma frag_dec e eth data : (exists b d, frag_of e eth data b d) \/ forall b d, ~ frag_of e eth data b d.
Proof.
  destruct (getHashKey (S (length data)) e eth data) as [[[[rc k] fi]|]| | |] eqn:EG;
    try (right; intros b d (rc' & k' & fi' & X & _); rewrite EG in X; discriminate).
  destruct (Z.eqb_spec (Z.land rc 3) 0) as [Z3|N3].
  - right. intros b d D. destruct (frag_kind _ _ _ _ _ _ _ _ EG D) as (X & _). contradiction.
  - left. destruct (frag_some _ _ _ _ _ _ EG N3) as (b & d & F & _). eauto.
Qed.
(** A packet leaves *)
Lemma fresh_leave s p q i n v : env s -> q_at q = Inside i n -> znth (w_pk (n_node s i)) n = Some (Ret (Verdict v)) -> fresh s p q -> fresh s p (route peer q i v).
Proof.
  intros E EQ EV F. unfold fresh in F. rewrite EQ in F. destruct F as (N & HO & x & EX & O). assert (x = Ret (Verdict v)) as -> by congruence. cbn [outc] in O.
  destruct O as (V1 & V2). pose proof (ts_encap _ _ _ _ S0 i N) as EN. rewrite EN in V1, V2.
  unfold route. destruct (Z.ltb_spec v 0) as [NEG|POS].
  - unfold fresh. cbn [placed q_at]. split; [auto|]. split; [exact HO|]. intros b d D. destruct (V1 b d D) as [X|(X & _)]; auto. apply (tmark_some s) in X; auto. lia.
  - destruct (peer v) as [j|] eqn:EP.
    + destruct (frag_dec enc (q_eth q) (q_data q)) as [(b & d & D)|ND]; [|destruct (V2 ND); [lia|congruence]].
      destruct (V1 b d D) as [X|(_ & [X|X])]; [|lia|congruence]. destruct (tmark_some s _ _ _ E N X) as (HM & _ & _ & NO).
      destruct (ts_peer _ _ _ _ S0 _ _ EP) as (NJ & OJ). unfold fresh. cbn [placed q_at]. split; [exact NJ|]. right.
      split; [|exists b, d; split; [exact D|congruence]]. cbn [placed q_hops]. destruct HO as [->|(_ & b' & d' & D' & X')]; [reflexivity|].
      destruct (frag_unique _ _ _ _ _ _ _ D D') as (_ & <-). congruence.
    + unfold fresh. cbn [placed q_at]. split; [auto|]. split; [exact HO|]. intros b d D. destruct (V1 b d D) as [X|(X & _)]; auto.
      destruct (tmark_some s _ _ _ E N X) as (_ & _ & Y & _). congruence.
Qed.
Lemma SI_step s m s' : env s -> SI s -> nstep H node peer s m = Some s' -> SI s'.
Proof.
  intros E ((arr & I) & LE & PV) ST. destruct (NI_step H node peer enc S0 s arr m s' (proj1 E) I ST) as (arr' & I'). split; [eauto|].
  assert (XI : exists arr, NI H node peer s arr) by eauto.
  destruct m as [i eth data|k now done|i m|k]; cbn [nstep] in ST.
  - destruct (node i) eqn:N; [|discriminate]. injection ST as <-. cbn [n_pk]. split; [unfold zlen in *; rewrite app_length; lia|].
    intros p q X. destruct (znth_app2 _ _ _ _ X) as [Y|(-> & ->)]; [apply (PV p q Y)|].
    assert (NO : znth (n_pk s0) (zlen (n_pk s)) = None) by (destruct (znth (n_pk s0) _) eqn:EZ; [apply znth_some_range in EZ; lia|reflexivity]).
    split; [intros q0 Y; congruence|]. right. unfold fresh, hops_ok, from, old_hops, late. rewrite NO. cbn. split; [auto|left; lia].
  - destruct (znth (n_pk s) k) as [q|] eqn:EP; [|discriminate]. destruct (q_at q) as [i| | |] eqn:EQ; try discriminate.
    match type of ST with match ?x with _ => _ end = _ => destruct x as [[w ev| |]|] eqn:ES; try discriminate end. injection ST as <-. cbn [n_pk].
    split; [unfold zlen in *; rewrite zupd_length; lia|].
    destruct (PV k q EP) as (SM & [(_ & _ & B)|F]); [rewrite EQ in B; destruct B|]. pose proof F as F'. unfold fresh in F'. rewrite EQ in F'. destruct F' as (N & HO).
    intros p x X. destruct (znth_zupd_cases _ _ _ _ _ X) as [(-> & ->)|(NE & Y)].
    + split; [exact SM|]. right. unfold fresh. cbn [placed q_at n_node q_eth q_data]. split; [auto|]. split; [exact HO|]. unfold set_node. rewrite Z.eqb_refl.
      eexists. split; [apply (pstep_arrive _ _ _ _ _ _ _ _ ES)|]. apply handler_strict; apply (ts_none _ _ _ _ S0 i N).
    + destruct (PV p x Y) as (SM' & [B|B]); split; auto. right. apply (fresh_step s i _ w ev _ p x E XI N ES B).
  - assert (K : exists w ev, node i = true /\ pstep (H i) (n_node s i) m = Some (Cont w ev) /\ s' = mkNet (set_node (n_node s) i w) (n_pk s)).
    { destruct m; try discriminate; (destruct (node i) eqn:N; [|discriminate]);
        (destruct (pstep (H i) (n_node s i) _) as [[w ev| |]|] eqn:ES; try discriminate); injection ST as <-; exists w, ev; auto. }
    destruct K as (w & ev & N & ES & ->). cbn [n_pk]. split; [auto|]. intros p x X. destruct (PV p x X) as (SM & [B|B]); split; auto.
    right. apply (fresh_step s i _ w ev _ p x E XI N ES B).
  - destruct (znth (n_pk s) k) as [q|] eqn:EP; [|discriminate]. destruct (q_at q) as [|i n| |] eqn:EQ; try discriminate.
    destruct (znth (w_pk (n_node s i)) n) as [[[v|]|]|] eqn:EV; try discriminate. injection ST as <-. cbn [n_pk].
    split; [unfold zlen in *; rewrite zupd_length; lia|]. intros p x X. destruct (znth_zupd_cases _ _ _ _ _ X) as [(-> & ->)|(NE & Y)]; [|apply (PV p x Y)].
    destruct (PV k q EP) as (SM & F). split.
    { intros q0 Y. destruct (SM q0 Y). unfold route. destruct (v <? 0); [|destruct (peer v)]; auto. }
    destruct F as [(LT & HO & B)|F]; [|right; apply (fresh_leave s k q i n v E EQ EV F)].
    assert (SL : forall a, match a with Wire _ => False | _ => True end -> stale k (placed q (q_hops q) a)) by (intros a Y; split; [auto|split; [exact HO|exact Y]]).
    unfold route. destruct (v <? 0); [left; apply SL; exact Logic.I|]. destruct (peer v) as [j|] eqn:EPV; [|left; apply SL; exact Logic.I].
    right. unfold fresh. cbn [placed q_at]. split; [apply (ts_peer _ _ _ _ S0 _ _ EPV)|]. left. unfold from. rewrite LT. cbn [placed q_hops]. lia.
Qed.
Lemma SI_exec shm mem s : nexec H node peer (tier_marks H node peer) (nstart H shm mem) s0 -> nexec H node peer env s0 s -> SI s.
Proof.
  intros X0 X. destruct (NI_exec H node peer enc S0 _ _ _ X0) as (_ & arr & I). assert (K : env s /\ SI s); [|apply K].
  induction X as [E|s m s' X (E & J) ST E']; [split; [auto|eapply SI_start; eauto]|]. split; auto. eapply SI_step; eauto.
Qed.
Lemma fresh_hops s p q : fresh s p q -> q_hops q = from p \/ q_hops q = from p + 1 /\ exists b d, fragment enc q b d.
Proof.
  intros F. assert (K : forall i, hops_ok p q i -> q_hops q = from p \/ q_hops q = from p + 1 /\ exists b d, fragment enc q b d).
  { intros i [?|(? & b & d & ? & _)]; eauto 6. }
  unfold fresh in F. destruct (q_at q) as [i|i n|i v|i]; destruct F as (_ & F); apply (K i); tauto.
Qed.
Lemma fresh_home s p q b d i : fresh s p q -> fragment enc q b d -> left_at q i -> node i = true /\ (home_mark T d = None \/ home_mark T d = own H i).
Proof.
  intros F D L. unfold fresh in F. destruct L as [L|(v & L)]; rewrite L in F; destruct F as (N & _ & S); split; auto; apply (tmark_none i d N), (S b d D).
Qed.
Lemma own_inj i j v : node i = true -> node j = true -> own H i = Some v -> own H j = Some v -> i = j.
Proof.
  intros N N' O O'. destruct (ts_own _ _ _ _ S0 i N) as (x & X & P). destruct (ts_own _ _ _ _ S0 j N') as (y & Y & P'). congruence.
Qed.
End Settle.

(** ** The theorems *)
Section Theorems.
Variables (H : Z -> kind) (node : Z -> bool) (peer : Z -> option Z) (enc : Z) (T : mag).
Hypothesis S0 : tier_setup H node peer enc.
Variables (shm : Z -> Cstr_Model.chars -> option Z) (mem : Z -> Z -> mag) (s0 s : net).
Hypothesis X0 : nexec H node peer (tier_marks H node peer) (nstart H shm mem) s0.
Hypothesis X1 : nexec H node peer (tier_env H node peer T) s0 s.
Lemma later_fresh p q : znth (n_pk s) p = Some q -> later s0 p -> fresh H node peer enc T s0 s p q /\ from s0 p = old_hops s0 p.
Proof.
  intros X L. destruct (SI_exec H node peer enc T S0 s0 shm mem s X0 X1) as (_ & _ & PV). destruct (PV p q X) as (_ & F).
  assert (NL : late s0 p = false) by (unfold late; destruct L as [->|(q0 & i & -> & ->)]; reflexivity).
  split; [destruct F as [(B & _)|F]; [congruence|exact F]|]. unfold from. rewrite NL. lia.
Qed.
Lemma tier_hops p q : znth (n_pk s) p = Some q -> znth (n_pk s0) p = None -> q_hops q = 0 \/ q_hops q = 1 /\ exists b d, fragment enc q b d.
Proof.
  intros X N. destruct (later_fresh p q X (or_introl N)) as (F & E). apply fresh_hops in F. rewrite E in F. unfold old_hops in F. rewrite N in F. exact F.
Qed.
Lemma tier_settles p q q0 : znth (n_pk s) p = Some q -> znth (n_pk s0) p = Some q0 -> q_eth q = q_eth q0 /\ q_data q = q_data q0 /\ q_hops q0 <= q_hops q <= q_hops q0 + 2.
Proof.
  intros X Y. destruct (SI_exec H node peer enc T S0 s0 shm mem s X0 X1) as (_ & _ & PV). destruct (PV p q X) as (SM & F). destruct (SM _ Y) as (A & B). split; [auto|]. split; [auto|].
  assert (OH : old_hops s0 p = q_hops q0) by (unfold old_hops; rewrite Y; auto).
  destruct F as [(_ & F & _)|F]; [lia|]. apply fresh_hops in F. unfold from in F. destruct (late s0 p); lia.
Qed.
Lemma tier_home p q b d i : znth (n_pk s) p = Some q -> later s0 p -> fragment enc q b d -> left_at q i -> home_mark T d = None \/ home_mark T d = own H i.
Proof. intros X L D LA. destruct (later_fresh p q X L) as (F & _). eapply fresh_home; eauto. Qed.
Lemma tier_meet p q p' q' b b' d i j : znth (n_pk s) p = Some q -> znth (n_pk s) p' = Some q' -> later s0 p -> later s0 p' ->
  fragment enc q b d -> fragment enc q' b' d -> left_at q i -> left_at q' j -> home_mark T d <> None -> i = j.
Proof.
  intros X X' L L' D D' LA LA' NH. destruct (later_fresh p q X L) as (F & _). destruct (later_fresh p' q' X' L') as (F' & _).
  destruct (fresh_home H node peer enc T S0 _ _ _ _ _ _ _ F D LA) as (N & [?|E1]); [contradiction|].
  destruct (fresh_home H node peer enc T S0 _ _ _ _ _ _ _ F' D' LA') as (N' & [?|E2]); [contradiction|].
  destruct (home_mark T d) as [v|]; [|congruence]. eapply own_inj; eauto.
Qed.
Lemma nexec_app : nexec H node peer (tier_marks H node peer) (nstart H shm mem) s.
Proof. clear S0. induction X1 as [|a m b Y IH ST E]; [exact X0|]. eapply nx_step; [exact (IH Y)|exact ST|apply E]. Qed.
Lemma tier_together p q p' q' d i j v w : znth (n_pk s) p = Some q -> znth (n_pk s) p' = Some q' -> later s0 p -> later s0 p' ->
  fragment enc q false d -> fragment enc q' false d -> q_at q = Sent i v -> q_at q' = Sent j w -> home_mark T d <> None ->
  (forall f f' x y, In f (n_pk s) -> In f' (n_pk s) -> fragment enc f true d -> fragment enc f' true d -> given s f i x -> given s f' i y -> x = y) -> i = j /\ v = w.
Proof.
  intros X X' L L' D D' A A' NH U. assert (i = j) as <-.
  { eapply (tier_meet p q p' q'); [exact X|exact X'|exact L|exact L'|exact D|exact D'|right; eauto|right; eauto|exact NH]. }
  split; [auto|]. destruct (tier_steered H node peer enc S0 _ _ _ _ _ _ _ nexec_app (znth_In _ _ _ _ X) D A) as (f & A1 & A2 & A3).
  destruct (tier_steered H node peer enc S0 _ _ _ _ _ _ _ nexec_app (znth_In _ _ _ _ X') D' A') as (f' & B1 & B2 & B3). eapply U; [exact A1|exact B1| | | |]; eauto.
Qed.
End Theorems.
