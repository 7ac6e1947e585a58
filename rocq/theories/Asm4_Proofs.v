(** The counter of complete datagrams counts the calls that complete one (C73). *)
From Verif Require Import Base Conntrack_Model Conntrack_Spec Conntrack_Proofs Conntrack2_Proofs Reasm_Model Reasm_Spec Frag_Model Frag_Spec Frag_Proofs Frag2_Proofs Frag3_Proofs Asm_Model Asm_Spec Asm_Proofs Asm2_Proofs.

Lemma unlock_reas s o s' ob : fragDataUnlock s o = Ok (s', ob) -> s_reassembled s' = s_reassembled s.
Proof.
  unfold fragDataUnlock. intro H.
  repeat match type of H with
  | context [match ?x with _ => _ end] => destruct x; try discriminate
  end; injection H as <- _; reflexivity.
Qed.
Lemma lock_reas s o s' : fragDataLock s o = Ok s' -> s_reassembled s' = s_reassembled s.
Proof.
  unfold fragDataLock. intro H.
  repeat match type of H with
  | context [match ?x with _ => _ end] => destruct x; try discriminate
  end; injection H as <-; reflexivity.
Qed.
Lemma callbacks_reas ev : forall s s' ob, callbacks s ev = Ok (s', ob) -> s_reassembled s' = s_reassembled s.
Proof.
  induction ev as [|e ev IH]; intros s s' ob H; cbn [callbacks] in H; [injection H as <- _; reflexivity|].
  match type of H with obind ?x _ = _ => destruct x as [[s1 ob1]| | |] eqn:E end; try discriminate. cbn [obind] in H.
  destruct (callbacks s1 ev) as [[s2 ob2]| | |] eqn:E2; try discriminate. cbn [obind] in H. injection H as <- _.
  rewrite (IH _ _ _ E2). destruct e as [o|b|[b|]]; [exact (unlock_reas _ _ _ _ E)| | |]; injection E as <- _; reflexivity.
Qed.
Lemma table_reas s o s' v ob : table_op s o = Ok (s', v, ob) -> s_reassembled s' = s_reassembled s.
Proof.
  unfold table_op. destruct (cstep (s_ct s) o) as [[[t v0] ev]| | |]; try discriminate. cbn [obind].
  destruct (callbacks (set_ct s t) ev) as [[s1 ob1]| | |] eqn:E; try discriminate. cbn [obind]. intro H. injection H as <- _ _.
  exact (callbacks_reas _ _ _ _ E).
Qed.
Lemma lookup_reas s now k s' o ob : lookup_op s now k = Ok (s', o, ob) -> s_reassembled s' = s_reassembled s.
Proof.
  unfold lookup_op. destruct (table_op s (OLookup now k)) as [[[s1 o1] ob1]| | |] eqn:E; try discriminate. cbn [obind].
  destruct (o1 =? 0); [intro H; injection H as <- _ _; exact (table_reas _ _ _ _ _ E)|].
  destruct (fragDataLock s1 o1) as [s2| | |] eqn:E2; try discriminate. cbn [obind]. intro H. injection H as <- _ _.
  rewrite (lock_reas _ _ _ E2). exact (table_reas _ _ _ _ _ E).
Qed.
Lemma insert_reas g s now k o st s' v ob : insert_op g s now k o st = Ok (s', v, ob) -> s_reassembled s' = s_reassembled s.
Proof.
  unfold insert_op. destruct (ctInsertWithTTL _ _ _ _ _ _) as [[[t v0] ev]| | |]; try discriminate. cbn [obind]. intro H.
  exact (table_reas _ _ _ _ _ H).
Qed.

(** The step that counts *)
Definition counts (s : sys) (p : pc) (a : choice) : bool :=
  match p with
  | PBody (CStore _ _ _) o => match oget (s_objs s) o with Some b => match o_state b with Valid => a_done a | _ => false end | None => false end
  | _ => false
  end.
(** Behind the critical section *)
Definition late (p : pc) : Prop :=
  match p with PAlloc _ | PIns _ _ | PInc _ _ | PLost _ _ | PAgain _ | PFull _ _ | PBody _ _ => False | _ => True end.
Lemma tstep_reas g s p a s' p' ob : tstep g s p a = Ok (s', p', ob) ->
  s_reassembled s' = (if counts s p a then u32 (s_reassembled s + 1) else s_reassembled s) /\
  (p <> Idle -> late p \/ (exists c o, p = PBody c o) -> late p').
Proof.
  intro H. destruct p as [|c|c o|c o|c o|c|c o|c o|c o l|c l|c o|c o|c o|c o|c o l|c l|c o f|c o f rc v|c o rc v]; cbn [tstep] in H; cbn [counts].
  all: try (match type of H with
    | obind ?x _ = _ => destruct x as [q| | |] eqn:E; try discriminate; cbn [obind] in H
    end).
  - destruct q as [[s1 o] ob1]. split; [|congruence]. rewrite <- (lookup_reas _ _ _ _ _ _ E).
    destruct (o =? 0); [destruct (a_call a)|]; injection H as <- _ _; reflexivity.
  - split; [|intros _ [[]|[? [? X]]]; discriminate]. destruct (s_fdfree s <=? 0); injection H as <- _ _; reflexivity.
  - destruct q as [[s1 rc] ob1]. split; [|intros _ [[]|[? [? X]]]; discriminate]. injection H as <- _ _. exact (insert_reas _ _ _ _ _ _ _ _ _ E).
  - split; [|intros _ [[]|[? [? X]]]; discriminate]. injection H as <- _ _. exact (lock_reas _ _ _ E).
  - destruct q as [s1 ob1]. split; [|intros _ [[]|[? [? X]]]; discriminate]. injection H as <- _ _. exact (unlock_reas _ _ _ _ E).
  - destruct q as [[s1 o] ob1]. split; [|intros _ [[]|[? [? X]]]; discriminate]. rewrite <- (lookup_reas _ _ _ _ _ _ E).
    destruct (o =? 0); injection H as <- _ _; reflexivity.
  - destruct q as [s1 ob1]. split; [|intros _ [[]|[? [? X]]]; discriminate]. injection H as <- _ _. exact (unlock_reas _ _ _ _ E).
  - destruct (oget (s_objs s) o) as [b|]; [|discriminate]. destruct c as [now k v want|now k|now k d].
    + split; [destruct (o_state b); injection H as <- _ _; reflexivity|]. intros _ _. destruct (o_state b); injection H as _ <- _; exact Logic.I.
    + split; [destruct (o_state b); injection H as <- _ _; reflexivity|]. intros _ _. destruct (o_state b); injection H as _ <- _; exact Logic.I.
    + destruct (o_state b).
      * destruct (a_done a); [|injection H as <- <- _; split; [reflexivity|]; intros _ _; exact Logic.I].
        destruct (table_op s (ORemove now k)) as [[[s1 v] ob1]| | |] eqn:E; try discriminate. cbn [obind] in H. injection H as <- <- _.
        cbn [inc_reas s_reassembled]. rewrite (table_reas _ _ _ _ _ E). split; [reflexivity|]. intros _ _. exact Logic.I.
      * injection H as <- <- _. split; [reflexivity|]. intros _ _. exact Logic.I.
      * injection H as <- <- _. split; [reflexivity|]. intros _ _. exact Logic.I.
  - destruct q as [s1 ob1]. injection H as <- <- _. split; [exact (unlock_reas _ _ _ _ E)|]. intros _ _. exact Logic.I.
  - destruct c as [now k v [|]|now k|now k d]; injection H as <- <- _; (split; [reflexivity|]; intros _ _; exact Logic.I).
  - destruct (oget (s_objs s) o) as [b|]; [|discriminate]. destruct (o_state b), c as [now k v want|now k|now k d];
      try (injection H as <- <- _; split; [reflexivity|]; intros _ _; exact Logic.I).
    destruct (g_mtu g <? zlen d); injection H as <- <- _; (split; [reflexivity|]; intros _ _; exact Logic.I).
  - destruct (oget (s_objs s) o) as [b|]; [|discriminate]. destruct (o_val b) as [v|]; [|discriminate].
    injection H as <- <- _. split; [reflexivity|]. intros _ _. exact Logic.I.
  - destruct c as [now k v want|now k|now k d]; try discriminate. destruct (s_frfree s <=? 0); injection H as <- <- _; (split; [reflexivity|]; intros _ _; exact Logic.I).
  - destruct (oget (s_objs s) o) as [b|]; [|discriminate]. injection H as <- <- _. split; [reflexivity|]. intros _ _. exact Logic.I.
  - destruct q as [s1 ob1]. injection H as <- <- _. split; [exact (unlock_reas _ _ _ _ E)|]. intros _ _. exact Logic.I.
  - injection H as <- <- _. split; [reflexivity|]. intros _ _. exact Logic.I.
  - destruct (oget (s_objs s) o) as [b|]; [|discriminate]. destruct (o_state b); [| |]; try (destruct (o_val b) as [v|]; [|discriminate]);
      injection H as <- <- _; (split; [reflexivity|]; intros _ _; exact Logic.I).
  - injection H as <- <- _. split; [reflexivity|]. intros _ _. exact Logic.I.
  - destruct q as [s1 ob1]. injection H as <- <- _. split; [exact (unlock_reas _ _ _ _ E)|]. intros _ _. exact Logic.I.
Qed.

Lemma late_no s p a : late p -> counts s p a = false.
Proof. destruct p; cbn; try reflexivity. intros []. Qed.
(** No datagram complete: nothing is counted. *)
Lemma finish_undone n g a : a_done a = false -> forall s p s' ob, finish n g s p a = Ok (s', ob) -> s_reassembled s' = s_reassembled s.
Proof.
  intro Hd. induction n as [|n IH]; intros s p s' ob H; [discriminate|]. apply fin_inv in H. destruct H as [s1 [p1 [ob1 [Et Cs]]]].
  destruct (tstep_reas _ _ _ _ _ _ _ Et) as [R _].
  assert (counts s p a = false) as Ec.
  { destruct p; try reflexivity. destruct c; try reflexivity. cbn [counts]. destruct (oget (s_objs s) o) as [b|]; [|reflexivity]. destruct (o_state b); auto. }
  rewrite Ec in R. destruct Cs as [[_ [<- _]]|[_ [ob2 [Ef _]]]]; [exact R|]. rewrite (IH _ _ _ _ Ef). exact R.
Qed.
Lemma finish_late n g a : forall s p s' ob, p <> Idle -> late p -> finish n g s p a = Ok (s', ob) -> s_reassembled s' = s_reassembled s.
Proof.
  induction n as [|n IH]; intros s p s' ob Hp Hl H; [discriminate|]. apply fin_inv in H. destruct H as [s1 [p1 [ob1 [Et Cs]]]].
  destruct (tstep_reas _ _ _ _ _ _ _ Et) as [R L]. rewrite (late_no _ _ _ Hl) in R.
  destruct Cs as [[_ [<- _]]|[Hp1 [ob2 [Ef _]]]]; [exact R|]. rewrite (IH _ _ _ _ Hp1 (L Hp (or_introl Hl)) Ef). exact R.
Qed.
(** A session with a value and a complete datagram: one is counted. *)
Lemma finish_done n g tr s now k d v sm s' ob : conf_ok g -> 0 <= g_ttl g -> 0 <= now < two64 -> Inv g tr s [Idle] [] -> Bk g s -> Link g now s sm ->
  current (g_ttl g) sm now k = Some (SValid v) -> finish n g s Idle (mkChoice (CStore now k d) true false) = Ok (s', ob) ->
  s_reassembled s' = u32 (s_reassembled s + 1).
Proof.
  intros G Ht Hn I B L Hc H. destruct n as [|n]; [discriminate|]. apply fin_inv in H. destruct H as [s1 [p1 [ob1 [Et Cs]]]].
  destruct (tstep_reas _ _ _ _ _ _ _ Et) as [R _]. cbn [counts] in R.
  destruct (lookup_front g tr s now k sm G Ht Hn I B L) as [s1' [o [ob1' [El [_ [_ [_ Cases]]]]]]].
  cbn [tstep a_call c_now c_k] in Et. pose proof Et as Et0. rewrite El in Et. cbn [obind] in Et.
  destruct Cases as [[_ [Hx _]]|[Ho [st [Hst HA]]]]; [congruence|]. assert (st = SValid v) as -> by congruence.
  destruct (o =? 0) eqn:E0; [lia|]. injection Et as <- <- <-. destruct Cs as [[X _]|[_ [ob2 [Ef _]]]]; [discriminate|].
  assert (I1 : Inv g (tr ++ ob1') s1' [PBody (CStore now k d) o] []).
  { destruct (plain_step 0 g tr (mkA s [] [] 0) Idle [] (CStore now k d) false s1' (PBody (CStore now k d) o) ob1' G I B) as [x1 Hx]; try discriminate.
    - constructor; [reflexivity|constructor].
    - cbn [tstep a_call a_sys c_now c_k]. rewrite El. cbn [obind]. rewrite E0. reflexivity.
    - destruct Hx as [_ [<- [_ [_ [I1 _]]]]]. exact I1. }
  pose proof (HA _ _ _ I1) as A1. destruct (At_obj _ _ _ _ _ _ A1 ltac:(lia)) as [b [Hb Hsm]]. rewrite sput_same in Hsm. assert (Hab : abs b = SValid v) by congruence.
  pose proof (abs_state _ _ (v_good _ _ _ _ _ I1 _ _ Hb)) as HS. rewrite Hab in HS. destruct HS as [Hs _].
  destruct n as [|n]; [discriminate|]. apply fin_inv in Ef. destruct Ef as [s2 [p2 [ob3 [Et2 Cs2]]]].
  destruct (tstep_reas _ _ _ _ _ _ _ Et2) as [R2 L2]. cbn [counts a_done] in R2. rewrite Hb, Hs, R in R2.
  destruct Cs2 as [[_ [<- _]]|[Hp2 [ob4 [Ef2 _]]]]; [exact R2|].
  rewrite (finish_late _ _ _ _ _ _ _ Hp2 (L2 ltac:(discriminate) (or_intror (ex_intro _ _ (ex_intro _ _ eq_refl)))) Ef2). exact R2.
Qed.

Lemma watch_done ni ttl m am c d am1 : watch ni ttl m am c d true am1 -> exists now k d' v, c = CStore now k d' /\ current ttl m now k = Some (SValid v).
Proof. intro H. inversion H; subst. do 4 eexists. split; [reflexivity|eassumption]. Qed.
Lemma completes_run size g l : forall tr x sm am t0, conf_seq g -> 0 <= g_ttl g < two64 -> 0 <= t0 -> clock t0 l ->
  Inv g tr (a_sys x) [Idle] [] -> Bk g (a_sys x) -> Link g t0 (a_sys x) sm -> TOk size x -> owned x -> TI x am -> 0 <= s_reassembled (a_sys x) < two32 ->
  (forall l1 c d l2 ans x1 m1 am1, l = l1 ++ (c, d) :: l2 -> served g x sm am l1 ans x1 m1 am1 -> orderly (g_ttl g) m1 am1 c d) ->
  exists ans x' m' am' n, completes g x sm am l ans x' m' am' n /\ s_reassembled (a_sys x') = u32 (s_reassembled (a_sys x) + n).
Proof.
  induction l as [|[c d] l IH]; intros tr x sm am t0 Gs Ht Ht0 Hc I B L T O HT Hr Hor.
  { exists [], x, sm, am, 0. split; [constructor|]. unfold u32. rewrite Z.add_0_r, Z.mod_small by lia. reflexivity. }
  destruct Hc as [Hc1 Hc2]. assert (Hn : 0 <= c_now c < two64) by lia. pose proof (Link_later g t0 (c_now c) (a_sys x) sm L (proj1 Hc1)) as L0.
  assert (Oc : orderly (g_ttl g) sm am c d) by (eapply (Hor []); [reflexivity|constructor]).
  assert (Tot : forall done, exists s' ob, finish 12 g (a_sys x) Idle (mkChoice c done false) = Ok (s', ob) /\ Inv g (tr ++ ob) s' [Idle] []).
  { intro done. destruct (call_ok g tr (a_sys x) sm c done Gs Ht Hn I B L0) as [an [sm' [_ [s' [ob [E [I' _]]]]]]]. rewrite call_fin in E. exists s', ob. split; assumption. }
  destruct (acall_sim 8 size g tr x sm am c d Gs Ht Hn I B L0 T O HT Oc Tot) as [x1 [ob [done [am1 [E [Ep [T1 [O1 [HT1 Hw]]]]]]]]].
  assert (R : s_reassembled (a_sys x1) = u32 (s_reassembled (a_sys x) + if done then 1 else 0)).
  { destruct done.
    - destruct (watch_done _ _ _ _ _ _ _ Hw) as [now [k [d' [v [-> Hcur]]]]]. cbn [c_now] in *.
      exact (finish_done _ _ _ _ _ _ _ _ _ _ _ (proj1 Gs) (proj1 Ht) Hn I B L0 Hcur Ep).
    - rewrite (finish_undone 12 g (mkChoice c false false) eq_refl _ _ _ _ Ep). unfold u32. rewrite Z.add_0_r, Z.mod_small by lia. reflexivity. }
  rewrite <- acall_fin in E. rewrite <- call_fin in Ep.
  destruct (call_ok g tr (a_sys x) sm c done Gs Ht Hn I B L0) as [an [sm1 [Sp [s1 [ob1 [E1 [I1 [B1 [L1 [R1 R2]]]]]]]]]].
  rewrite Ep in E1. assert (s1 = a_sys x1 /\ ob1 = ob) as (-> & ->) by (split; congruence).
  destruct (IH _ _ _ _ _ Gs Ht (proj1 Hn) Hc2 I1 B1 L1 T1 O1 HT1) as [ans [x' [m' [am' [n [Hs Rn]]]]]].
  { rewrite R. apply Z.mod_pos_bound. reflexivity. }
  { intros l1 c' d' l2 ans x2 m2 am2 El Hs. eapply (Hor ((c, d) :: l1)); [rewrite El; reflexivity|]. econstructor; eauto. }
  exists (an :: ans), x', m', am', (n + if done then 1 else 0). split; [econstructor; eauto|].
  rewrite Rn, R. unfold u32. rewrite Zplus_mod_idemp_l. f_equal. lia.
Qed.
Lemma completes_served g x m am l ans x' m' am' n : completes g x m am l ans x' m' am' n -> served g x m am l ans x' m' am'.
Proof. intro H. induction H; [constructor|econstructor; eauto]. Qed.
Lemma completes_ok g size l : conf_seq g -> clock 0 l ->
  (forall l1 c d l2 ans x m am, l = l1 ++ (c, d) :: l2 -> served g (asmCreate g size) sempty aempty l1 ans x m am -> orderly (g_ttl g) m am c d) ->
  exists ans x m am n, completes g (asmCreate g size) sempty aempty l ans x m am n /\
    served g (asmCreate g size) sempty aempty l ans x m am /\ s_reassembled (a_sys x) = n mod two32.
Proof.
  intros Gs Hc Hor. destruct (start_ok g 1 (proj1 Gs)) as [I B]. cbn [start w_sys w_pcs repeat] in *.
  assert (Ht : 0 <= g_ttl g < two64).
  { unfold g_ttl, u32. pose proof (Z.mod_pos_bound (g_millis g * 1000000) two32 ltac:(reflexivity)). unfold two64, two32 in *. lia. }
  destruct (completes_run (Z.of_nat size) g l [] (asmCreate g size) sempty aempty 0 Gs Ht ltac:(lia) Hc I B) as [ans [x [m [am [n [H R]]]]]]; [| | | | |exact Hor|].
  - destruct Gs as [[G1 _] _]. exists empty. cbn [asmCreate a_sys fragTableCreate s_ct].
    split; [apply create_inv; lia|]. split; [apply create_rel|]. split; [intros k e [H _]; discriminate|intros k x H; discriminate].
  - constructor; cbn [asmCreate a_pool a_trk]; [|constructor]. unfold createReassembler, zlen. rewrite repeat_length. cbn. lia.
  - intros o t Ht'. discriminate.
  - intros c Hc'. apply in_tab_stored in Hc'. cbn [asmCreate a_sys fragTableCreate s_ct] in Hc'.
    assert (Hc2 : In (c_data c) (stored_data (s_ct (fragTableCreate g)))) by exact Hc'. destruct (stored_alive _ _ _ _ _ _ I Hc2) as [b Hb]. discriminate.
  - cbn. unfold two32. lia.
  - exists ans, x, m, am, n. split; [exact H|]. split; [exact (completes_served _ _ _ _ _ _ _ _ _ _ H)|]. exact R.
Qed.
