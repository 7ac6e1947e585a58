(** The fragment table with a reassembler: calls one after the other (C80). *)
From Verif Require Import Base Lists IpKey_Model Conntrack_Model Conntrack_Spec Conntrack_Proofs Conntrack2_Proofs Reasm_Model Reasm_Spec Reasm_Proofs
  Frag_Model Frag_Spec Frag_Proofs Frag2_Proofs Frag3_Proofs Asm_Model Asm_Spec Asm_Proofs.
From Coq Require Import Permutation.

(** ** The table *)
Lemma lookup_miss size now t k t' ev c : 0 <= now < two64 -> inv size now t -> ctLookup t now k = Ok (t', 0, ev) -> inv size now t' -> in_tab t' c -> c_key c <> k.
Proof.
  intros Hn I H I' [j [b [Hb Hc]]] E. unfold ctLookup in H. destruct (slot_ok _ _ _ k I) as [Es [b0 [Hz Ha]]]. rewrite Es in H. cbn [obind] in H. rewrite Ha in H. cbn [obind] in H.
  destruct (lookupBucket b0 now) as [[b1 ev1] n] eqn:HL. destruct (lookupBucket_spec _ _ _ _ _ HL (i_wf _ _ _ I _ _ Hz)) as [L1 _].
  destruct (search b1 k now) as [[b' d]|] eqn:HS.
  - assert (d = 0) as -> by congruence. destruct (search_some _ _ _ _ _ HS L1) as [_ [_ [_ [c0 [_ [_ [_ [Hd _]]]]]]]]. congruence.
  - injection H as <- _. pose proof (i_slot _ _ _ I' _ _ _ Hb Hc) as Ej. rewrite E in Ej. cbn [t_buckets] in Hb. subst j.
    rewrite znth_zupd_eq in Hb by (eapply znth_some_range; eauto). injection Hb as <-. exact (search_none _ _ _ HS _ Hc E).
Qed.
Lemma insert_hit t now k ttl d al t' ev : winv t -> ctInsertWithTTL t now k ttl d al = Ok (t', 1, ev) -> exists c, in_tab t c /\ c_key c = k.
Proof.
  intros W H. unfold ctInsertWithTTL in H. destruct (d =? 0); [discriminate|].
  destruct (slot (t_buckets t) k) as [i| | |]; try discriminate. cbn [obind] in H.
  destruct (aget (t_buckets t) i) as [b| | |] eqn:Eb; try discriminate. apply Lists.aget_ok in Eb. cbn [obind] in H.
  destruct (lookupBucket b now) as [[b1 ev1] n] eqn:HL. destruct (lookupBucket_spec _ _ _ _ _ HL (W _ _ Eb)) as [L1 [_ [L3 _]]].
  destruct (search b1 k now) as [[b' d']|] eqn:HS.
  - destruct (search_some _ _ _ _ _ HS L1) as [_ [_ [_ [c [Hc [Hk _]]]]]]. rewrite L3 in Hc. apply filter_In in Hc. exists c. split; [exists i, b; tauto|assumption].
  - destruct (c_data (b_main b1) =? 0); [discriminate|]. destruct al; discriminate.
Qed.

(** ** One step of the table: what is in it, and what objects there are *)
Lemma kd_refl t c : in_tab t c -> same_kd t c.
Proof. intro H. exists c. auto. Qed.
Lemma kd_trans t t' c : (forall c', in_tab t' c' -> same_kd t c') -> same_kd t' c -> same_kd t c.
Proof. intros H [c1 [H1 [H2 H3]]]. destruct (H _ H1) as [c0 [H4 [H5 H6]]]. exists c0. split; [assumption|]. split; congruence. Qed.

Lemma table_tab s o s' v ob c' : winv (s_ct s) -> NoDup (map fst (s_objs s)) -> table_op s o = Ok (s', v, ob) -> in_tab (s_ct s') c' ->
  same_kd (s_ct s) c' \/ (exists now ttl al, o = OInsert now (c_key c') ttl (c_data c') al /\ v = 0).
Proof.
  intros W N H Hc. unfold table_op in H. destruct (cstep (s_ct s) o) as [[[t v1] ev]| | |] eqn:E; try discriminate. cbn [obind] in H.
  destruct (callbacks (set_ct s t) ev) as [[s1 ob1]| | |] eqn:E2; try discriminate. cbn [obind] in H. assert (s1 = s' /\ v1 = v) as (-> & ->) by (split; congruence).
  destruct (callbacks_keep _ (set_ct s t) _ _ N E2) as [_ [_ [K3 _]]]. rewrite K3 in Hc. exact (step_tab _ _ _ _ _ _ W E Hc).
Qed.
Lemma table_keep s o s' v ob : NoDup (map fst (s_objs s)) -> table_op s o = Ok (s', v, ob) -> keep s s'.
Proof.
  intros N H. unfold table_op in H. destruct (cstep (s_ct s) o) as [[[t v1] ev]| | |] eqn:E; try discriminate. cbn [obind] in H.
  destruct (callbacks (set_ct s t) ev) as [[s1 ob1]| | |] eqn:E2; try discriminate. cbn [obind] in H. assert (s1 = s') as -> by congruence.
  exact (proj1 (callbacks_keep _ (set_ct s t) _ _ N E2)).
Qed.
Lemma lookup_tab_kd s now k s' o ob : winv (s_ct s) -> NoDup (map fst (s_objs s)) -> lookup_op s now k = Ok (s', o, ob) ->
  (forall c', in_tab (s_ct s') c' -> same_kd (s_ct s) c') /\ keep s s'.
Proof.
  intros W N H. unfold lookup_op in H. destruct (table_op s (OLookup now k)) as [[[s1 o1] ob1]| | |] eqn:E; try discriminate. cbn [obind] in H.
  assert (T : forall c', in_tab (s_ct s1) c' -> same_kd (s_ct s) c').
  { intros c' Hc. destruct (table_tab _ _ _ _ _ _ W N E Hc) as [K|[? [? [? [K _]]]]]; [assumption|discriminate]. }
  pose proof (table_keep _ _ _ _ _ N E) as K. destruct (o1 =? 0).
  - assert (s1 = s') as -> by congruence. auto.
  - destruct (fragDataLock s1 o1) as [s2| | |] eqn:E2; try discriminate. cbn [obind] in H. assert (s2 = s') as -> by congruence.
    destruct (lock_keep _ _ _ E2) as [K2 [_ [K3 _]]]. split; [rewrite K3; assumption|eapply keep_trans; eauto].
Qed.
Lemma insert_tab_kd g s now k o st s' v ob : winv (s_ct s) -> NoDup (map fst (s_objs s)) -> insert_op g s now k o st = Ok (s', v, ob) ->
  (forall c', in_tab (s_ct s') c' -> same_kd (s_ct s) c' \/ v = 0 /\ c_key c' = k /\ c_data c' = o) /\ keep s s' /\
  (v = 1 -> exists c, in_tab (s_ct s) c /\ c_key c = k).
Proof.
  intros W N H. unfold insert_op in H. destruct (ctInsertWithTTL (s_ct s) now k (g_ttl g) o (Some (s_next s))) as [[[t v1] ev]| | |] eqn:E; try discriminate. cbn [obind] in H. cbv zeta in H.
  split; [|split].
  - intros c' Hc. destruct (table_tab (set_next s (s_next s + 1)) _ _ _ _ _ W N H Hc) as [K|[now' [ttl' [al' [K Hv]]]]]; [left; assumption|].
    right. injection K as _ -> _ -> _. auto.
  - exact (table_keep (set_next s (s_next s + 1)) _ _ _ _ N H).
  - intros ->. unfold table_op in H. cbn [cstep] in H. change (s_ct (set_next s (s_next s + 1))) with (s_ct s) in H.
    match type of H with context [ctInsertWithTTL (s_ct s) now k (g_ttl g) o ?al] => destruct (ctInsertWithTTL (s_ct s) now k (g_ttl g) o al) as [[[t2 v2] ev2]| | |] eqn:E2 end; try discriminate. cbn [obind] in H.
    destruct (callbacks _ ev2) as [[s2 ob2]| | |]; try discriminate. cbn [obind] in H. assert (v2 = 1) as -> by congruence. eapply insert_hit; eauto.
Qed.

Definition born (p p' : pc) (c' : cent) : Prop :=
  match p, p' with PIns c o, PInc _ _ => c_key c' = c_k c /\ c_data c' = o | _, _ => False end.
Lemma tstep_kd g s p a s' p' ob : winv (s_ct s) -> NoDup (map fst (s_objs s)) -> tstep g s p a = Ok (s', p', ob) ->
  (forall c', in_tab (s_ct s') c' -> same_kd (s_ct s) c' \/ born p p' c') /\
  ((forall c, p <> PAlloc c) -> forall o, oget (s_objs s') o <> None -> oget (s_objs s) o <> None).
Proof.
  intros W N H.
  assert (Kp : forall (P : Prop), s_ct s' = s_ct s -> keep s s' -> (forall c', in_tab (s_ct s') c' -> same_kd (s_ct s) c' \/ born p p' c') /\ (P -> forall o, oget (s_objs s') o <> None -> oget (s_objs s) o <> None)).
  { intros P E K. split; [intros c' Hc; left; rewrite E in Hc; apply kd_refl; assumption|]. intros _ o Ho. destruct (oget (s_objs s') o) as [b'|] eqn:Eb; [|congruence].
    destruct (K _ _ Eb) as [b [Hb _]]. congruence. }
  assert (Kt : forall (P : Prop), (forall c', in_tab (s_ct s') c' -> same_kd (s_ct s) c') -> keep s s' -> (forall c', in_tab (s_ct s') c' -> same_kd (s_ct s) c' \/ born p p' c') /\ (P -> forall o, oget (s_objs s') o <> None -> oget (s_objs s) o <> None)).
  { intros P E K. split; [intros c' Hc; left; auto|]. intros _ o Ho. destruct (oget (s_objs s') o) as [b'|] eqn:Eb; [|congruence].
    destruct (K _ _ Eb) as [b [Hb _]]. congruence. }
  assert (Se : forall (P : Prop) o b, (exists b0, oget (s_objs s) o = Some b0) -> s' = set_obj s o b -> (forall c', in_tab (s_ct s') c' -> same_kd (s_ct s) c' \/ born p p' c') /\ (P -> forall o, oget (s_objs s') o <> None -> oget (s_objs s) o <> None)).
  { intros P o b Hb ->. split; [intros c' Hc; left; apply kd_refl; assumption|]. intros _ o' Ho. cbn [set_obj set_objs s_objs] in Ho. rewrite oget_oset in Ho by assumption.
    destruct (o =? o') eqn:Eo; [|assumption]. assert (o' = o) as -> by lia. destruct Hb as [b0 ->]. congruence. }
  assert (U : forall (P : Prop) o (q : list obs -> pc) (f : list obs -> list obs) q', (do x <- fragDataUnlock s o; let '(s1, ob1) := x in Ok (s1, q ob1, f ob1)) = Ok (s', q', ob) -> (forall c', in_tab (s_ct s') c' -> same_kd (s_ct s) c' \/ born p p' c') /\ (P -> forall o, oget (s_objs s') o <> None -> oget (s_objs s) o <> None)).
  { intros P o q f q' E. destruct (fragDataUnlock s o) as [[s1 ob1]| | |] eqn:Eu; try discriminate. cbn [obind] in E. assert (s1 = s') as -> by congruence.
    destruct (unlock_keep _ _ _ _ N Eu) as [K1 [_ [K3 _]]]. apply Kp; assumption. }
  assert (Sm : forall (P : Prop), s_ct s' = s_ct s -> s_objs s' = s_objs s -> (forall c', in_tab (s_ct s') c' -> same_kd (s_ct s) c' \/ born p p' c') /\ (P -> forall o, oget (s_objs s') o <> None -> oget (s_objs s) o <> None)) by (intros P E1 E2; apply Kp; [assumption|apply keep_objs; assumption]).
  assert (Id : forall (P : Prop), s' = s -> (forall c', in_tab (s_ct s') c' -> same_kd (s_ct s) c' \/ born p p' c') /\ (P -> forall o, oget (s_objs s') o <> None -> oget (s_objs s) o <> None)) by (intros P ->; apply Sm; reflexivity).
  destruct p; cbn [tstep] in H.
  - cbv zeta in H. destruct (lookup_op s (c_now (a_call a)) (c_k (a_call a))) as [[[s1 o] ob1]| | |] eqn:E; try discriminate. cbn [obind] in H.
    assert (s1 = s') as -> by (destruct (o =? 0); [destruct (a_call a)|]; congruence). destruct (lookup_tab_kd _ _ _ _ _ _ W N E) as [T K]. apply Kt; assumption.
  - destruct (s_fdfree s <=? 0); [apply Id; congruence|]. injection H as <- _ _. split; [intros c' Hc; left; apply kd_refl; assumption|]. intro Hn. exfalso. exact (Hn c eq_refl).
  - destruct (insert_op g s (c_now c) (c_k c) o (a_starved a)) as [[[s1 rc1] ob1]| | |] eqn:E; try discriminate. cbn [obind] in H.
    assert (s1 = s') as -> by congruence. assert (p' = (if rc1 =? 0 then PInc c o else if rc1 =? 1 then PLost c o else PFull c o)) as -> by congruence.
    destruct (insert_tab_kd _ _ _ _ _ _ _ _ _ W N E) as [T [K _]]. split.
    + intros c' Hc. destruct (T c' Hc) as [Hk|[-> Hk]]; [left; assumption|right; exact Hk].
    + intros _ o' Ho. destruct (oget (s_objs s') o') as [b'|] eqn:Eb; [|congruence]. destruct (K _ _ Eb) as [b [Hb _]]. congruence.
  - destruct (fragDataLock s o) as [s1| | |] eqn:E; try discriminate. cbn [obind] in H. assert (s1 = s') as -> by congruence. destruct (lock_keep _ _ _ E) as [K1 [_ [K3 _]]]. apply Kp; assumption.
  - exact (U _ o (fun _ => PAgain c) (fun x => x) _ H).
  - destruct (lookup_op s (c_now c) (c_k c)) as [[[s1 o] ob1]| | |] eqn:E; try discriminate. cbn [obind] in H.
    assert (s1 = s') as -> by (destruct (o =? 0); congruence). destruct (lookup_tab_kd _ _ _ _ _ _ W N E) as [T K]. apply Kt; assumption.
  - exact (U _ o (fun _ => Idle) (fun x => x ++ ret c (-1) None) _ H).
  - destruct (oget (s_objs s) o) as [b|] eqn:E; [|discriminate]. destruct c as [now k v want|now k|now k d].
    + destruct (o_state b); try (apply Id; congruence). injection H as <- _ _. eapply Se; [eauto|reflexivity].
    + destruct (o_state b); apply Id; congruence.
    + destruct (o_state b); [|apply Id; destruct (a_done a); congruence|apply Id; destruct (a_done a); congruence].
      destruct (a_done a); [|apply Id; congruence]. destruct (table_op s (ORemove now k)) as [[[s1 v1] ob1]| | |] eqn:Et; try discriminate. cbn [obind] in H.
      assert (s' = inc_reas s1) as -> by congruence. apply Kt; [|exact (table_keep _ _ _ _ _ N Et)].
      intros c' Hc. destruct (table_tab _ _ _ _ _ _ W N Et Hc) as [K|[? [? [? [K _]]]]]; [assumption|discriminate].
  - exact (U _ o (fun _ => PGive c l) (fun x => x) _ H).
  - cbv zeta in H. destruct c as [now k v [|]|now k|now k d]; injection H as <- _ _; apply Sm; reflexivity.
  - destruct (oget (s_objs s) o) as [b|] eqn:E; [|discriminate]. apply Id.
    destruct (o_state b), c; try congruence; destruct (g_mtu g <? zlen data); congruence.
  - destruct (oget (s_objs s) o) as [b|] eqn:E; [|discriminate]. destruct (o_val b); [|discriminate]. apply Id; congruence.
  - destruct c; try discriminate. destruct (s_frfree s <=? 0); injection H as <- _ _; apply Sm; reflexivity.
  - destruct (oget (s_objs s) o) as [b|] eqn:E; [|discriminate]. injection H as <- _ _. eapply Se; [eauto|reflexivity].
  - exact (U _ o (fun _ => PDrop c l) (fun x => x) _ H).
  - cbv zeta in H. injection H as <- _ _. apply Sm; reflexivity.
  - destruct (oget (s_objs s) o) as [b|] eqn:E; [|discriminate]. destruct (o_state b).
    + destruct (o_val b); [|discriminate]. apply Id; congruence.
    + injection H as <- _ _. eapply Se; [eauto|reflexivity].
    + apply Id; congruence.
  - injection H as <- _ _. apply Sm; reflexivity.
  - exact (U _ o (fun _ => Idle) (fun x => x ++ ret c rc v) _ H).
Qed.

(** ** Steps with trackers *)
Record calm (x x' : asys) : Prop := {
  cm_obj : forall o, oget (s_objs (a_sys x')) o <> None -> oget (s_objs (a_sys x)) o <> None;
  cm_trk : forall o, oget (s_objs (a_sys x')) o <> None -> tget (a_trk x') o = tget (a_trk x) o;
  cm_pool : zlen (a_pool x) <= zlen (a_pool x') }.
Definition tabs (x x' : asys) : Prop := forall c, in_tab (s_ct (a_sys x')) c -> same_kd (s_ct (a_sys x)) c.
Lemma calm_refl x : calm x x.
Proof. constructor; auto. lia. Qed.
Lemma calm_trans x y z : calm x y -> calm y z -> calm x z.
Proof.
  intros [A1 A2 A3] [B1 B2 B3]. constructor; [auto| |lia]. intros o Ho. rewrite (B2 _ Ho). apply A2. auto.
Qed.
Lemma tabs_trans x y z : tabs x y -> tabs y z -> tabs x z.
Proof. intros A B c Hc. apply (kd_trans _ _ _ A). apply B. assumption. Qed.

Lemma end_pool x o : zlen (a_pool x) <= zlen (a_pool (endTracker x o)).
Proof. unfold endTracker. destruct (tget (a_trk x) o); cbn [a_pool]; [|lia]. unfold raDestroy, zlen. rewrite app_length. lia. Qed.
Lemma endAll_pool l : forall x, zlen (a_pool x) <= zlen (a_pool (endAll x l)).
Proof.
  induction l as [|o l IH]; intro x; [cbn; lia|]. cbn [endAll]. destruct (oget (s_objs (a_sys x)) o); [apply IH|]. pose proof (end_pool x o). pose proof (IH (endTracker x o)). lia.
Qed.
Lemma tstep_done g s p c d1 d2 st : (forall c o, p <> PBody c o) -> tstep g s p (mkChoice c d1 st) = tstep g s p (mkChoice c d2 st).
Proof. intro H. destruct p; try reflexivity. exfalso. eapply H. reflexivity. Qed.

(** Whatever the critical section says, the rest of a step leaves the trackers of the objects in use alone. *)
Lemma atstep_calm size g tr x x1 p ps d c done s' p' ob : Inv g tr (a_sys x1) (p :: ps) [] -> TOk size x1 ->
  (forall c, p <> PAlloc c) -> assemble x p d = Ok (x1, done) -> tstep g (a_sys x1) p (mkChoice c done false) = Ok (s', p', ob) ->
  exists x', atstep g x p d c false = Ok (x', p', ob) /\ a_sys x' = s' /\ calm x1 x' /\
    (forall c', in_tab (s_ct s') c' -> same_kd (s_ct (a_sys x1)) c' \/ born p p' c').
Proof.
  intros I T Hp Ea Et. unfold atstep. rewrite Ea. cbn [obind]. rewrite Et. cbn [obind]. cbv zeta.
  set (n := match p with PUnl _ _ 1 _ => 1 | _ => 0 end). set (y := mkA s' (a_pool x1) (a_trk x1) (u32 (a_frags x1 + n))).
  set (l := unlocked g (a_sys x1) p (mkChoice c done false)).
  assert (E : match p, p' with PAlloc _, PIns _ o => newTracker (endAll y l) o | _, _ => endAll y l end = endAll y l) by (destruct p; try reflexivity; exfalso; eapply Hp; reflexivity).
  rewrite E. exists (endAll y l). split; [reflexivity|]. destruct (endAll_sys l y) as [Es _]. change (a_sys y) with s' in Es. split; [assumption|].
  destruct (tstep_kd _ _ _ _ _ _ _ (v_wf _ _ _ _ _ I) (v_nodup _ _ _ _ _ I) Et) as [Kt Ko].
  split; [|assumption]. constructor; rewrite ?Es.
  - apply Ko. assumption.
  - intros o Ho. rewrite (endAll_get l y o (to_nodup _ _ T)). change (a_sys y) with s'. destruct (oget (s_objs s') o); [reflexivity|congruence].
  - exact (endAll_pool l y).
Qed.
Lemma asm_none x p d : (forall c o, p <> PBody c o) -> assemble x p d = Ok (x, false).
Proof. intro H. destruct p; try reflexivity. exfalso. eapply H. reflexivity. Qed.
Lemma plain_step size g tr x p d c done s' p' ob : conf_ok g -> Inv g tr (a_sys x) [p] [] -> Bk g (a_sys x) -> TOk size x -> owned x ->
  (forall c o, p <> PBody c o) -> (forall c, p <> PAlloc c) -> tstep g (a_sys x) p (mkChoice c done false) = Ok (s', p', ob) ->
  exists x', atstep g x p d c false = Ok (x', p', ob) /\ a_sys x' = s' /\ calm x x' /\
    (forall c', in_tab (s_ct s') c' -> same_kd (s_ct (a_sys x)) c' \/ born p p' c') /\
    Inv g (tr ++ ob) (a_sys x') [p'] [] /\ Bk g (a_sys x') /\ TOk size x' /\ owned x'.
Proof.
  intros G I B T O Hb Ha Et. rewrite (tstep_done _ _ _ _ _ false _ Hb) in Et.
  destruct (atstep_calm size g tr x x p [] d c false s' p' ob I T Ha (asm_none _ _ _ Hb) Et) as [x' [E [Es [C K]]]].
  destruct (atstep_ok _ _ _ _ _ _ _ _ _ _ _ _ G I T O E) as [_ [T' [O' _]]]. exists x'. subst s'.
  destruct (adv _ _ _ _ _ _ _ _ G I B Et) as [I' B']. split; [assumption|]. split; [reflexivity|]. split; [assumption|]. split; [assumption|]. auto.
Qed.

(** ** The end of a call *)
Definition past (p : pc) : Prop :=
  match p with Idle | PAlloc _ | PIns _ _ | PInc _ _ | PLost _ _ | PAgain _ | PBody _ _ => False | _ => True end.
Lemma tstep_past g s p a s' p' ob : past p \/ (exists c o, p = PBody c o) -> tstep g s p a = Ok (s', p', ob) -> p' = Idle \/ past p'.
Proof.
  intros Hp H.
  assert (U : forall o (q : list obs -> pc) (f : list obs -> list obs), (do x <- fragDataUnlock s o; let '(s1, ob1) := x in Ok (s1, q ob1, f ob1)) = Ok (s', p', ob) -> exists z, p' = q z).
  { intros o q f E. destruct (fragDataUnlock s o) as [[s1 ob1]| | |]; try discriminate. cbn [obind] in E. exists ob1. congruence. }
  destruct p; try (destruct Hp as [[]|[? [? Hp]]]; discriminate Hp); clear Hp; cbn [tstep] in H.
  - destruct (U o (fun _ => Idle) (fun x => x ++ ret c (-1) None) H) as [_ ->]. left. reflexivity.
  - destruct (oget (s_objs s) o) as [b|]; [|discriminate]. destruct c as [now k v want|now k|now k d].
    + destruct (o_state b); injection H as _ <- _; right; exact Logic.I.
    + destruct (o_state b); injection H as _ <- _; right; exact Logic.I.
    + destruct (o_state b), (a_done a); try (injection H as _ <- _; right; exact Logic.I).
      destruct (table_op s (ORemove now k)) as [[[s1 v1] ob1]| | |]; try discriminate. cbn [obind] in H. injection H as _ <- _; right; exact Logic.I.
  - destruct (U o (fun _ => PGive c l) (fun x => x) H) as [_ ->]. right. exact Logic.I.
  - cbv zeta in H. destruct c as [now k v [|]|now k|now k d]; injection H as _ <- _; left; reflexivity.
  - destruct (oget (s_objs s) o) as [b|]; [|discriminate]. destruct (o_state b), c; try (injection H as _ <- _; right; exact Logic.I); destruct (g_mtu g <? zlen data); injection H as _ <- _; right; exact Logic.I.
  - destruct (oget (s_objs s) o) as [b|]; [|discriminate]. destruct (o_val b); [|discriminate]. injection H as _ <- _; right; exact Logic.I.
  - destruct c; try discriminate. destruct (s_frfree s <=? 0); injection H as _ <- _; right; exact Logic.I.
  - destruct (oget (s_objs s) o) as [b|]; [|discriminate]. injection H as _ <- _; right; exact Logic.I.
  - destruct (U o (fun _ => PDrop c l) (fun x => x) H) as [_ ->]. right. exact Logic.I.
  - cbv zeta in H. injection H as _ <- _. left. reflexivity.
  - destruct (oget (s_objs s) o) as [b|]; [|discriminate]. destruct (o_state b); [destruct (o_val b); [|discriminate]| |]; injection H as _ <- _; right; exact Logic.I.
  - injection H as _ <- _. right. exact Logic.I.
  - destruct (U o (fun _ => Idle) (fun x => x ++ ret c rc v) H) as [_ ->]. left. reflexivity.
Qed.
Lemma fin_inv n g s p a s' ob : finish (S n) g s p a = Ok (s', ob) -> exists s1 p1 ob1, tstep g s p a = Ok (s1, p1, ob1) /\
  (p1 = Idle /\ s1 = s' /\ ob1 = ob \/ p1 <> Idle /\ exists ob2, finish n g s1 p1 a = Ok (s', ob2) /\ ob = ob1 ++ ob2).
Proof.
  cbn [finish]. destruct (tstep g s p a) as [[[s1 p1] ob1]| | |]; try discriminate. cbn [obind]. intro H. exists s1, p1, ob1. split; [reflexivity|].
  assert (C : p1 = Idle \/ p1 <> Idle) by (destruct p1; (left; reflexivity) || (right; discriminate)). destruct C as [->|C].
  - left. split; [reflexivity|]. split; congruence.
  - right. split; [assumption|].
    assert (H' : (do y <- finish n g s1 p1 a; let '(s2, ob2) := y in Ok (s2, ob1 ++ ob2)) = Ok (s', ob)) by (destruct p1; congruence).
    destruct (finish n g s1 p1 a) as [[s2 ob2]| | |]; try discriminate. cbn [obind] in H'. exists ob2. split; congruence.
Qed.
Lemma afin_last n g x p d c x' ob : atstep g x p d c false = Ok (x', Idle, ob) -> afinish (S n) g x p d c = Ok (x', ob).
Proof. intro H. cbn [afinish]. rewrite H. reflexivity. Qed.
Lemma afin_step n g x p d c x1 p1 ob1 x2 ob2 : atstep g x p d c false = Ok (x1, p1, ob1) -> p1 <> Idle -> afinish n g x1 p1 d c = Ok (x2, ob2) ->
  afinish (S n) g x p d c = Ok (x2, ob1 ++ ob2).
Proof. intros H Hn H2. cbn [afinish]. rewrite H. cbn [obind]. destruct p1; try congruence; rewrite H2; reflexivity. Qed.

Lemma tabs_of x x' p p' : (forall c', in_tab (s_ct (a_sys x')) c' -> same_kd (s_ct (a_sys x)) c' \/ born p p' c') -> (forall c o, p <> PIns c o) -> tabs x x'.
Proof. intros H Hp c Hc. destruct (H c Hc) as [K|K]; [assumption|]. destruct p; try contradiction. exfalso. eapply Hp. reflexivity. Qed.
Lemma past_not p : past p -> (forall c o, p <> PBody c o) /\ (forall c, p <> PAlloc c) /\ (forall c o, p <> PIns c o).
Proof. intro H. split; [|split]; intros; intros ->; exact H. Qed.

Lemma past_fin size g c done : conf_ok g -> forall n tr x p d s' ob, past p -> Inv g tr (a_sys x) [p] [] -> Bk g (a_sys x) -> TOk size x -> owned x ->
  finish n g (a_sys x) p (mkChoice c done false) = Ok (s', ob) ->
  exists x', afinish n g x p d c = Ok (x', ob) /\ a_sys x' = s' /\ calm x x' /\ tabs x x' /\ TOk size x' /\ owned x'.
Proof.
  intro G. induction n as [|n IH]; intros tr x p d s' ob Hp I B T O H; [discriminate|].
  destruct (fin_inv _ _ _ _ _ _ _ H) as [s1 [p1 [ob1 [Et Cs]]]]. destruct (past_not _ Hp) as [N1 [N2 N3]].
  destruct (plain_step size g tr x p d c done s1 p1 ob1 G I B T O N1 N2 Et) as [x1 [E1 [S1 [C1 [K1 [I1 [B1 [T1 O1]]]]]]]]. subst s1.
  pose proof (tabs_of _ _ _ _ K1 N3) as K1'.
  destruct Cs as [[-> [<- ->]]|[Hn [ob2 [Hf ->]]]].
  - exists x1. split; [apply afin_last; assumption|]. auto 10.
  - destruct (tstep_past _ _ _ _ _ _ _ (or_introl Hp) Et) as [->|Hp1]; [congruence|].
    destruct (IH _ x1 p1 d s' ob2 Hp1 I1 B1 T1 O1 Hf) as [x' [E' [S' [C' [K' [T' O']]]]]].
    exists x'. split; [eapply afin_step; eauto|]. split; [assumption|]. split; [eapply calm_trans; eauto|]. split; [eapply tabs_trans; eauto|]. auto.
Qed.
Lemma body_end size g n tr x x1 c o d done s' ob : conf_ok g -> Inv g tr (a_sys x) [PBody c o] [] -> Bk g (a_sys x) -> TOk size x -> owned x ->
  assemble x (PBody c o) d = Ok (x1, done) -> finish n g (a_sys x) (PBody c o) (mkChoice c done false) = Ok (s', ob) ->
  exists x', afinish n g x (PBody c o) d c = Ok (x', ob) /\ a_sys x' = s' /\ calm x1 x' /\ tabs x1 x' /\ TOk size x' /\ owned x'.
Proof.
  intros G I B T O Ea H. destruct n as [|n]; [discriminate|]. destruct (fin_inv _ _ _ _ _ _ _ H) as [s1 [p1 [ob1 [Et Cs]]]].
  destruct (assemble_ok _ _ _ _ _ _ T Ea) as [T1 [S1 _]]. pose proof Et as Et0. rewrite <- S1 in Et, I.
  destruct (atstep_calm size g tr x x1 (PBody c o) [] d c done s1 p1 ob1 I T1 ltac:(discriminate) Ea Et) as [x2 [E2 [S2 [C2 K2]]]]. subst s1.
  rewrite S1 in I. destruct (adv _ _ _ _ _ _ _ _ G I B Et0) as [I2 B2]. destruct (atstep_ok _ _ _ _ _ _ _ _ _ _ _ _ G I T O E2) as [_ [T2 [O2 _]]].
  assert (K2' : tabs x1 x2) by (eapply tabs_of; [exact K2|discriminate]).
  destruct Cs as [[-> [<- ->]]|[Hn [ob2 [Hf ->]]]].
  - exists x2. split; [apply afin_last; assumption|]. auto 10.
  - destruct (tstep_past _ _ _ _ _ _ _ (or_intror (ex_intro _ c (ex_intro _ o eq_refl))) Et0) as [->|Hp1]; [congruence|].
    destruct (past_fin size g c done G n _ x2 p1 d s' ob2 Hp1 I2 B2 T2 O2 Hf) as [x' [E' [S' [C' [K' [T' O']]]]]].
    exists x'. split; [eapply afin_step; eauto|]. split; [assumption|]. split; [eapply calm_trans; eauto|]. split; [eapply tabs_trans; eauto|]. auto.
Qed.

(** ** The critical section *)
Definition trk_ok (t : option tracker) (fs : option (list Reasm_Spec.frag)) : Prop :=
  match fs with Some fs => exists t', t = Some t' /\ tracked fs t' | None => t = None end.
Definition seen (x : asys) (c : call) (o : Z) (d : list Z) (b : obj) (fs : option (list Reasm_Spec.frag)) (done : bool) (new : option (list Reasm_Spec.frag)) : Prop :=
  match c with
  | CGet _ _ => done = false /\ new = fs
  | CFirst _ _ _ _ => done = false /\ match fs with Some fs => exists f, frag_packet d f /\ new = Some (fs ++ [f]) | None => new = None end
  | CStore _ _ d' =>
      match o_state b with
      | Valid => match fs with Some fs => exists f, frag_packet d' f /\ new = Some (fs ++ [f]) /\ (done = true <-> complete (fs ++ [f])) | None => done = false /\ new = None end
      | _ => done = false /\ new = None
      end
  end.
Lemma handle_run size x o t d fs : TOk size x -> tget (a_trk x) o = Some t -> tracked fs t -> fits fs d ->
  exists x1 r f, handle x o t d = Ok (x1, r) /\ frag_packet d f /\ (r = 0 <-> complete (fs ++ [f])) /\ a_sys x1 = a_sys x /\
    (exists t1, tget (a_trk x1) o = Some t1 /\ tracked (fs ++ [f]) t1) /\ (forall o', o' <> o -> tget (a_trk x1) o' = tget (a_trk x) o').
Proof.
  intros T Ht Tr [n [f [Hn [Hp [Hf Hs]]]]]. destruct (packets_ok n fs t f d (a_pool x) Hn Tr Hp Hf Hs) as [r [t1 [p1 [E [_ Hr]]]]].
  unfold handle. rewrite E. cbn [obind]. do 3 eexists. split; [reflexivity|]. split; [exact Hp|]. split; [assumption|]. split; [reflexivity|]. cbn [a_trk].
  split; [exists t1; split; [rewrite tget_tset by eauto; rewrite Z.eqb_refl; reflexivity|]|].
  - rewrite (read_frag d f t (a_pool x) Hp) in E. eapply tracked_frag; eauto.
  - intros o' Ho. rewrite tget_tset by eauto. destruct (o =? o') eqn:Eo; [lia|reflexivity].
Qed.
Lemma body_asm size x c o d b fs : TOk size x -> oget (s_objs (a_sys x)) o = Some b -> trk_ok (tget (a_trk x) o) fs ->
  (match c, fs with CFirst _ _ _ _, Some fs => fits fs d | CStore _ _ d', Some fs => o_state b = Valid -> fits fs d' | _, _ => True end) ->
  exists x1 done new, assemble x (PBody c o) d = Ok (x1, done) /\ a_sys x1 = a_sys x /\ seen x c o d b fs done new /\
    trk_ok (tget (a_trk x1) o) new /\ (forall o', o' <> o -> tget (a_trk x1) o' = tget (a_trk x) o').
Proof.
  intros T Hb Ht Hf. cbn [assemble]. destruct fs as [fs|]; cbn [trk_ok] in Ht.
  - destruct Ht as [t [Ht Tr]]. rewrite Ht. destruct c as [now k v want|now k|now k d'].
    + destruct (handle_run _ _ _ _ _ _ T Ht Tr Hf) as [x1 [r [f [E [Hp [_ [S1 [H1 H2]]]]]]]]. rewrite E. cbn [obind fst].
      exists x1, false, (Some (fs ++ [f])). split; [reflexivity|]. split; [assumption|]. split; [cbn [seen]; eauto|]. split; [exact H1|assumption].
    + exists x, false, (Some fs). split; [reflexivity|]. split; [reflexivity|]. split; [cbn [seen]; auto|]. split; [exists t; auto|auto].
    + rewrite Hb. destruct (o_state b) eqn:Es.
      * destruct (handle_run _ _ _ _ _ _ T Ht Tr (Hf eq_refl)) as [x1 [r [f [E [Hp [Hr [S1 [H1 H2]]]]]]]]. rewrite E. cbn [obind fst snd].
        exists x1, (r =? 0), (Some (fs ++ [f])). split; [reflexivity|]. split; [assumption|]. split; [|split; [exact H1|assumption]].
        cbn [seen]. rewrite Es. exists f. split; [assumption|]. split; [reflexivity|]. rewrite <- Hr. lia.
      * exists (endTracker x o), false, None. split; [reflexivity|]. split; [apply end_sys|]. split; [cbn [seen]; rewrite Es; auto|].
        split; [cbn [trk_ok]; rewrite end_get by apply T; rewrite Z.eqb_refl; reflexivity|]. intros o' Ho. rewrite end_get by apply T. destruct (o =? o') eqn:Eo; [lia|reflexivity].
      * exists (endTracker x o), false, None. split; [reflexivity|]. split; [apply end_sys|]. split; [cbn [seen]; rewrite Es; auto|].
        split; [cbn [trk_ok]; rewrite end_get by apply T; rewrite Z.eqb_refl; reflexivity|]. intros o' Ho. rewrite end_get by apply T. destruct (o =? o') eqn:Eo; [lia|reflexivity].
  - rewrite Ht. exists x, false, None. split; [reflexivity|]. split; [reflexivity|]. split; [|split; [exact Ht|auto]].
    destruct c; cbn [seen]; auto. destruct (o_state b); auto.
Qed.

(** ** A new object *)
Lemma alloc_step size g tr x c d s' p' ob : conf_ok g -> Inv g tr (a_sys x) [PAlloc c] [] -> Bk g (a_sys x) -> TOk size x -> owned x ->
  tstep g (a_sys x) (PAlloc c) (mkChoice c false false) = Ok (s', p', ob) ->
  exists x', atstep g x (PAlloc c) d c false = Ok (x', p', ob) /\ a_sys x' = s' /\ s_ct s' = s_ct (a_sys x) /\
    Inv g (tr ++ ob) (a_sys x') [p'] [] /\ Bk g (a_sys x') /\ TOk size x' /\ owned x' /\
    (p' = Idle /\ calm x x' \/
     exists o, p' = PIns c o /\ oget (s_objs (a_sys x)) o = None /\ oget (s_objs s') o = Some (mkObj 1 Storing None [] (c_k c)) /\
       (forall o', o' <> o -> tget (a_trk x') o' = tget (a_trk x) o' /\ oget (s_objs s') o' = oget (s_objs (a_sys x)) o') /\
       (trk_ok (tget (a_trk x') o) (Some []) \/ trk_ok (tget (a_trk x') o) None /\ zlen (a_pool x) < 2)).
Proof.
  intros G I B T O Et.
  assert (Ex : exists x', atstep g x (PAlloc c) d c false = Ok (x', p', ob)).
  { unfold atstep. cbn [assemble obind]. rewrite Et. cbn [obind]. eexists. reflexivity. }
  destruct Ex as [x' E]. destruct (atstep_ok _ _ _ _ _ _ _ _ _ _ _ _ G I T O E) as [_ [T' [O' _]]]. exists x'. split; [assumption|].
  destruct (adv _ _ _ _ _ _ _ _ G I B Et) as [I' B'].
  unfold atstep in E. cbn [assemble obind] in E. rewrite Et in E. cbn [obind unlocked endAll] in E. cbn [tstep] in Et. destruct (s_fdfree (a_sys x) <=? 0).
  - injection Et as <- <- <-. assert (x' = mkA (a_sys x) (a_pool x) (a_trk x) (u32 (a_frags x + 0))) as -> by congruence. cbn [a_sys] in *.
    repeat (split; [first [reflexivity|assumption]|]). left. split; [reflexivity|]. constructor; cbn [a_sys a_trk a_pool]; auto. lia.
  - cbv zeta in Et. set (o := s_next (a_sys x)) in *. assert (Ep : p' = PIns c o) by congruence. subst p'.
    set (y := mkA s' (a_pool x) (a_trk x) (u32 (a_frags x + 0))) in *. assert (x' = newTracker y o) as -> by congruence. destruct (new_sys y o) as [Sy _]. rewrite Sy in *.
    assert (Es : s' = add_fd (set_next (set_objs (a_sys x) ((o, mkObj 1 Storing None [] (c_k c)) :: s_objs (a_sys x))) (o + 1)) (-1)) by congruence.
    split; [reflexivity|]. split; [rewrite Es; reflexivity|]. split; [assumption|]. split; [assumption|]. split; [assumption|]. split; [assumption|].
    right. exists o. split; [reflexivity|].
    assert (Nn : oget (s_objs (a_sys x)) o = None).
    { destruct (oget (s_objs (a_sys x)) o) as [b|] eqn:Eb; [|reflexivity]. pose proof (v_ids _ _ _ _ _ I _ _ Eb). unfold o in *. lia. }
    split; [assumption|]. split; [rewrite Es; cbn [add_fd set_next set_objs s_objs oget fst snd]; rewrite Z.eqb_refl; reflexivity|].
    assert (Nt : tget (a_trk x) o = None) by (destruct (tget (a_trk x) o) as [t|] eqn:Eo; [exfalso; exact (O _ _ Eo Nn)|reflexivity]).
    split.
    + intros o' Ho. split; [|rewrite Es; cbn [add_fd set_next set_objs s_objs oget fst snd]; destruct (o =? o') eqn:Eo; [lia|reflexivity]].
      unfold newTracker. destruct (raNew (a_pool y)) as [[t|] p]; cbn [a_trk tget fst snd]; [|reflexivity]. destruct (o =? o') eqn:Eo; [lia|reflexivity].
    + unfold newTracker. change (a_pool y) with (a_pool x). destruct (raNew (a_pool x)) as [[t|] p] eqn:En; cbn [a_trk].
      * left. cbn [trk_ok tget fst snd]. rewrite Z.eqb_refl. exists t. split; [reflexivity|]. eapply tracked_new; eauto.
      * right. split; [exact Nt|]. unfold raNew in En. destruct (a_pool x) as [|i [|j r]]; [unfold zlen; cbn; lia|unfold zlen; cbn; lia|discriminate].
Qed.

(** ** What the trackers in the table have seen *)
Definition TI (x : asys) (am : amap) : Prop := forall c, in_tab (s_ct (a_sys x)) c -> trk_ok (tget (a_trk x) (c_data c)) (am (c_key c)).
Lemma TI_ext x am am' : TI x am -> (forall k, am' k = am k) -> TI x am'.
Proof. intros H E c Hc. rewrite E. auto. Qed.
Lemma aput_same m k v : aput m k v k = v.
Proof. unfold aput. destruct (list_eq_dec Z.eq_dec k k); congruence. Qed.
Lemma aput_other m k v k' : k' <> k -> aput m k v k' = m k'.
Proof. intro H. unfold aput. destruct (list_eq_dec Z.eq_dec k k'); congruence. Qed.
Lemma aput_id m k k' : aput m k (m k) k' = m k'.
Proof. unfold aput. destruct (list_eq_dec Z.eq_dec k k'); congruence. Qed.
Lemma tab_alive g tr s ps D c : Inv g tr s ps D -> in_tab (s_ct s) c -> oget (s_objs s) (c_data c) <> None.
Proof. intros I H. apply in_tab_stored in H. destruct (stored_alive _ _ _ _ _ _ I H) as [b Hb]. congruence. Qed.
Lemma key_unique g now s sm c1 c2 : Link g now s sm -> in_tab (s_ct s) c1 -> in_tab (s_ct s) c2 -> c_key c1 = c_key c2 -> c_data c1 = c_data c2.
Proof.
  intros [cm [_ [[R1 _] _]]] H1 H2 E. apply R1 in H1, H2. rewrite E, H2 in H1. injection H1 as H1 _ _. congruence.
Qed.
Lemma data_unique g tr s ps D c1 c2 : Inv g tr s ps D -> in_tab (s_ct s) c1 -> in_tab (s_ct s) c2 -> c_data c1 = c_data c2 -> c_key c1 = c_key c2.
Proof.
  intros I H1 H2 E. pose proof (tab_alive _ _ _ _ _ _ I H1) as A. destruct (oget (s_objs s) (c_data c1)) as [b|] eqn:Eb; [|congruence].
  pose proof (v_entry _ _ _ _ _ I _ _ H1 Eb). rewrite E in Eb. pose proof (v_entry _ _ _ _ _ I _ _ H2 Eb). congruence.
Qed.
Lemma lookup_found g tr s now k s1 o ob : Inv g tr s [Idle] [] -> lookup_op s now k = Ok (s1, o, ob) -> o <> 0 -> exists c, in_tab (s_ct s1) c /\ c_key c = k /\ c_data c = o.
Proof.
  intros I H Ho. unfold lookup_op, table_op in H. cbn [cstep] in H. destruct (ctLookup (s_ct s) now k) as [[[t v] ev]| | |] eqn:E; try discriminate. cbn [obind] in H.
  destruct (callbacks (set_ct s t) ev) as [[s2 ob2]| | |] eqn:E2; try discriminate. cbn [obind] in H.
  destruct (callbacks_keep _ (set_ct s t) _ _ (v_nodup _ _ _ _ _ I) E2) as [_ [_ [K3 _]]]. cbn [set_ct s_ct] in K3.
  destruct (v =? 0) eqn:Ev; [congruence|]. destruct (fragDataLock s2 v) as [s3| | |] eqn:El; try discriminate. cbn [obind] in H. assert (s3 = s1 /\ v = o) as (-> & ->) by (split; congruence).
  destruct (lock_keep _ _ _ El) as [_ [_ [K4 _]]]. rewrite K4, K3. exact (lookup_tab _ _ _ _ _ _ (v_wf _ _ _ _ _ I) E Ho).
Qed.
Lemma lookup_missed g tr s now k sm s1 ob sm1 : 0 <= now < two64 -> Inv g tr s [Idle] [] -> Link g now s sm -> lookup_op s now k = Ok (s1, 0, ob) -> Link g now s1 sm1 ->
  forall c, in_tab (s_ct s1) c -> c_key c <> k.
Proof.
  intros Hn I [cm [Li _]] H [cm1 [Li1 _]] c Hc. unfold lookup_op, table_op in H. cbn [cstep] in H. destruct (ctLookup (s_ct s) now k) as [[[t v] ev]| | |] eqn:E; try discriminate. cbn [obind] in H.
  destruct (callbacks (set_ct s t) ev) as [[s2 ob2]| | |] eqn:E2; try discriminate. cbn [obind] in H.
  destruct (callbacks_keep _ (set_ct s t) _ _ (v_nodup _ _ _ _ _ I) E2) as [_ [_ [K3 _]]]. cbn [set_ct s_ct] in K3.
  assert (v = 0 /\ s2 = s1) as (-> & ->).
  { destruct (v =? 0) eqn:Ev; [split; [lia|congruence]|]. destruct (fragDataLock s2 v) as [s3| | |] eqn:El; try discriminate. cbn [obind] in H. assert (v = 0) by congruence. lia. }
  rewrite K3 in *. exact (lookup_miss _ _ _ _ _ _ _ Hn Li E Li1 Hc).
Qed.

(** ** One call *)
Lemma call_fin g s c done : call_op g s c done = finish 12 g s Idle (mkChoice c done false).
Proof. unfold call_op. reflexivity. Qed.
Lemma acall_fin g x c d : acall g x c d = afinish 12 g x Idle d c.
Proof. unfold acall. reflexivity. Qed.
Definition sim (n : nat) (size : Z) (g : conf) (x : asys) (sm : smap) (am : amap) (c : call) (d : list Z) : Prop :=
  exists x' ob done am', afinish n g x Idle d c = Ok (x', ob) /\ finish n g (a_sys x) Idle (mkChoice c done false) = Ok (a_sys x', ob) /\ TOk size x' /\ owned x' /\ TI x' am' /\
    watch (zlen (a_pool x) < 2) (g_ttl g) sm am c d done am'.

Lemma acall_sim n size g tr x sm am c d : conf_seq g -> 0 <= g_ttl g < two64 -> 0 <= c_now c < two64 ->
  Inv g tr (a_sys x) [Idle] [] -> Bk g (a_sys x) -> Link g (c_now c) (a_sys x) sm -> TOk size x -> owned x -> TI x am ->
  orderly (g_ttl g) sm am c d ->
  (forall done, exists s' ob, finish (S (S (S (S n)))) g (a_sys x) Idle (mkChoice c done false) = Ok (s', ob) /\ Inv g (tr ++ ob) s' [Idle] []) ->
  sim (S (S (S (S n)))) size g x sm am c d.
Proof.
  intros Gs Ht Hnow I B L T O HT Hor Tot. pose proof (proj1 Gs) as G. set (s := a_sys x) in *. set (k := c_k c) in *. set (now := c_now c) in *.
  destruct (lookup_front g tr s now k sm G ltac:(lia) Hnow I B L) as [s1 [o [ob1 [El [_ [_ [_ Cases]]]]]]].
  destruct Cases as [[-> [Cn HL]]|[Ho [st [Cs HA]]]].
  - (* no session *)
    assert (Get : (exists now k, c = CGet now k) \/ (forall done, tstep g s Idle (mkChoice c done false) = Ok (s1, PAlloc c, ob1))).
    { cbn [tstep a_call]. fold now k. rewrite El. cbn [obind Z.eqb]. destruct c; [right; reflexivity|left; eauto|right; reflexivity]. }
    destruct Get as [[now' [k' Ec]]|Ei].
    { assert (E : tstep g s Idle (mkChoice c false false) = Ok (s1, Idle, ob1 ++ ret c (-1) None)) by (cbn [tstep a_call]; fold now k; rewrite El, Ec; reflexivity).
      destruct (plain_step size g tr x Idle d c false _ _ _ G I B T O ltac:(discriminate) ltac:(discriminate) E) as [x1 [E1 [S1 [C1 [K1 [I1 [B1 [T1 O1]]]]]]]].
      subst s1. exists x1, (ob1 ++ ret c (-1) None), false, am. split; [apply afin_last; exact E1|]. split; [apply fin_last; exact E|]. split; [assumption|]. split; [assumption|].
      split; [|rewrite Ec; constructor]. intros c' Hc. destruct (K1 c' Hc) as [[c0 [H0 [Hk0 Hd0]]]|[]]. rewrite (cm_trk _ _ C1) by (eapply tab_alive; eauto).
      rewrite <- Hk0, <- Hd0. apply HT. assumption. }
    destruct (plain_step size g tr x Idle d c false _ _ _ G I B T O ltac:(discriminate) ltac:(discriminate) (Ei false)) as [x1 [E1 [S1 [C1 [K1 [I1 [B1 [T1 O1]]]]]]]].
    subst s1. pose proof (HL _ _ _ I1) as L1. pose proof (lookup_missed g tr s now k sm _ _ _ Hnow I L El L1) as Miss.
    assert (K1' : tabs x x1) by (eapply tabs_of; [exact K1|discriminate]).
    (* the steps up to the body do not depend on the reassembler *)
    destruct (Tot false) as [sf [obf [Ef If]]]. destruct (fin_inv _ _ _ _ _ _ _ Ef) as [s1' [p1' [ob1' [Et1 Cs1]]]]. rewrite (Ei false) in Et1. injection Et1 as <- <- <-.
    destruct Cs1 as [[Q _]|[_ [obf1 [Ef1 Eobf]]]]; [discriminate|].
    destruct (fin_inv _ _ _ _ _ _ _ Ef1) as [s2 [p2 [ob2 [Et2 Cs2]]]].
    destruct (alloc_step size g _ x1 c d s2 p2 ob2 G I1 B1 T1 O1 Et2) as [x2 [E2 [S2 [Ct2 [I2 [B2 [T2 [O2 Al]]]]]]]]. subst s2.
    (* nothing in the table for k: the new history of k does not matter *)
    assert (Fin : forall y v, (forall c', in_tab (s_ct (a_sys y)) c' -> same_kd (s_ct (a_sys x1)) c') ->
        (forall c', in_tab (s_ct (a_sys y)) c' -> tget (a_trk y) (c_data c') = tget (a_trk x1) (c_data c')) -> TI y (aput am k v)).
    { intros y v Hy Hg c' Hc. destruct (Hy c' Hc) as [c1 [H1 [Hk1 Hd1]]]. rewrite aput_other by (rewrite <- Hk1; apply Miss; assumption).
      rewrite Hg by assumption. rewrite <- Hd1, (cm_trk _ _ C1) by (eapply tab_alive; eauto). destruct (K1' _ H1) as [c0 [H0 [Hk0 Hd0]]]. rewrite <- Hk1, <- Hk0, <- Hd0. apply HT. assumption. }
    assert (Wa : exists v, watch (zlen (a_pool x) < 2) (g_ttl g) sm am c d false (aput am k v)).
    { destruct c as [now' k' v want|now' k'|now' k' d']; cbn [c_k c_now] in *; subst now k.
      - cbn [orderly] in Hor. rewrite Cn in Hor. destruct Hor as [n0 [f [_ [Hp _]]]]. exists (Some [f]). apply wa_new; assumption.
      - specialize (Ei false). cbn [tstep a_call c_now c_k] in Ei. rewrite El in Ei. discriminate.
      - exists None. apply wa_store. intros v Hv. congruence. }
    destruct Al as [[-> C2]|[o [-> [Hnew [Hb2 [Hoth Htrk]]]]]].
    { (* no object *)
      destruct Cs2 as [[_ [<- <-]]|[Q _]]; [|congruence]. destruct Wa as [v Wa].
      exists x2, obf, false, (aput am k v). split; [rewrite Eobf; eapply afin_step; [exact E1|discriminate|apply afin_last; exact E2]|].
      split; [exact Ef|]. split; [assumption|]. split; [assumption|]. split; [|assumption]. apply Fin.
      - intros c' Hc. rewrite Ct2 in Hc. apply kd_refl. assumption.
      - intros c' Hc. apply (cm_trk _ _ C2). eapply tab_alive; eauto. }
    destruct Cs2 as [[Q _]|[_ [obf2 [Ef2 Eobf1]]]]; [discriminate|].
    destruct (fin_inv _ _ _ _ _ _ _ Ef2) as [s3 [p3 [ob3 [Et3 Cs3]]]].
    destruct (plain_step size g _ x2 (PIns c o) d c false _ _ _ G I2 B2 T2 O2 ltac:(discriminate) ltac:(discriminate) Et3) as [x3 [E3 [S3 [C3 [K3 [I3 [B3 [T3 O3]]]]]]]]. subst s3.
    pose proof Et3 as Et3'. cbn [tstep] in Et3'. destruct (insert_op g (a_sys x2) (c_now c) (c_k c) o (a_starved (mkChoice c false false))) as [[[s3' v3] ob3']| | |] eqn:Ein; try discriminate. cbn [obind] in Et3'.
    assert (s3' = a_sys x3 /\ p3 = (if v3 =? 0 then PInc c o else if v3 =? 1 then PLost c o else PFull c o)) as (-> & Ep3) by (split; congruence).
    destruct (insert_tab_kd _ _ _ _ _ _ _ _ _ (v_wf _ _ _ _ _ I2) (v_nodup _ _ _ _ _ I2) Ein) as [Kd3 [Keep3 Hit3]].
    (* objects of the old table are not o *)
    assert (Old : forall c1, in_tab (s_ct (a_sys x1)) c1 -> c_data c1 <> o).
    { intros c1 H1 E. apply (tab_alive _ _ _ _ _ _ I1) in H1. congruence. }
    assert (Tr2 : forall c1, in_tab (s_ct (a_sys x1)) c1 -> tget (a_trk x2) (c_data c1) = tget (a_trk x1) (c_data c1)) by (intros c1 H1; apply Hoth; apply Old; assumption).
    destruct (v3 =? 0) eqn:V0; [|destruct (v3 =? 1) eqn:V1].
    + (* inserted *)
      subst p3. destruct Cs3 as [[Q _]|[_ [obf3 [Ef3 Eobf2]]]]; [discriminate|].
      destruct (fin_inv _ _ _ _ _ _ _ Ef3) as [s4 [p4 [ob4 [Et4 Cs4]]]].
      destruct (plain_step size g _ x3 (PInc c o) d c false _ _ _ G I3 B3 T3 O3 ltac:(discriminate) ltac:(discriminate) Et4) as [x4 [E4 [S4 [C4 [K4 [I4 [B4 [T4 O4]]]]]]]]. subst s4.
      assert (K4' : tabs x3 x4) by (eapply tabs_of; [exact K4|discriminate]).
      pose proof Et4 as Et4'. cbn [tstep] in Et4'. destruct (fragDataLock (a_sys x3) o) as [s4'| | |] eqn:Elk; try discriminate. cbn [obind] in Et4'.
      assert (s4' = a_sys x4 /\ p4 = PBody c o) as (-> & ->) by (split; congruence). destruct (lock_keep _ _ _ Elk) as [Keep4 _].
      destruct (held_alive _ _ _ _ _ _ o I4 eq_refl) as [b4 Hb4]. destruct (Keep4 _ _ Hb4) as [b3 [Hb3 Sm4]]. destruct (Keep3 _ _ Hb3) as [b2 [Hb2' Sm3]].
      rewrite Hb2 in Hb2'. injection Hb2' as <-. assert (Hst : o_state b4 = Storing) by (destruct Sm4 as [-> _]; destruct Sm3 as [-> _]; reflexivity).
      assert (Ho4 : tget (a_trk x4) o = tget (a_trk x2) o).
      { rewrite (cm_trk _ _ C4) by congruence. apply (cm_trk _ _ C3). congruence. }
      assert (Body : exists x5 done new, assemble x4 (PBody c o) d = Ok (x5, done) /\ a_sys x5 = a_sys x4 /\ done = false /\ trk_ok (tget (a_trk x5) o) new /\
         (forall o', o' <> o -> tget (a_trk x5) o' = tget (a_trk x4) o') /\ watch (zlen (a_pool x) < 2) (g_ttl g) sm am c d done (aput am k new)).
      { assert (Hpool : zlen (a_pool x) <= zlen (a_pool x1)) by apply C1.
        assert (Or : match c with CFirst _ _ _ _ => fits [] d | _ => True end).
        { destruct c; auto. cbn [orderly c_now c_k] in *. subst now k. cbn [c_now c_k] in Cn. rewrite Cn in Hor. assumption. }
        destruct Htrk as [Htrk|[Htrk Hsmall]].
        - destruct (body_asm size x4 c o d b4 (Some []) T4 Hb4 ltac:(rewrite Ho4; exact Htrk)) as [x5 [done [new [Ea [S5 [Hseen [Hn5 Ho5]]]]]]].
          { destruct c; auto. intro Hv. congruence. }
          exists x5, done, new. split; [assumption|]. split; [assumption|]. destruct c as [now' k' v want|now' k'|now' k' d']; cbn [seen c_k c_now] in *; subst now k.
          + destruct Hseen as [-> [f [Hp ->]]]. repeat (split; [first [reflexivity|assumption]|]). apply wa_new; assumption.
          + specialize (Ei false). cbn [tstep a_call c_now c_k] in Ei. rewrite El in Ei. discriminate.
          + rewrite Hst in Hseen. destruct Hseen as [-> ->]. repeat (split; [first [reflexivity|assumption]|]). apply wa_store. intros v Hv. congruence.
        - destruct (body_asm size x4 c o d b4 None T4 Hb4 ltac:(rewrite Ho4; exact Htrk)) as [x5 [done [new [Ea [S5 [Hseen [Hn5 Ho5]]]]]]].
          { destruct c; auto. }
          exists x5, done, new. split; [assumption|]. split; [assumption|]. destruct c as [now' k' v want|now' k'|now' k' d']; cbn [seen c_k c_now] in *; subst now k.
          + destruct Hseen as [-> ->]. repeat (split; [first [reflexivity|assumption]|]). apply wa_new_not; [assumption|lia].
          + specialize (Ei false). cbn [tstep a_call c_now c_k] in Ei. rewrite El in Ei. discriminate.
          + rewrite Hst in Hseen. destruct Hseen as [-> ->]. repeat (split; [first [reflexivity|assumption]|]). apply wa_store. intros v Hv. congruence. }
      destruct Body as [x5 [done [new [Ea [S5 [-> [Hn5 [Ho5 Hw]]]]]]]].
      destruct Cs4 as [[Q _]|[_ [obf4 [Ef4 Eobf3]]]]; [discriminate|].
      destruct (body_end size g _ _ x4 x5 c o d false _ _ G I4 B4 T4 O4 Ea Ef4) as [x6 [E6 [S6 [C6 [K6 [T6 O6]]]]]].
      exists x6, obf, false, (aput am k new). split.
      { rewrite Eobf. eapply afin_step; [exact E1|discriminate|]. rewrite Eobf1. eapply afin_step; [exact E2|discriminate|].
        rewrite Eobf2. eapply afin_step; [exact E3|discriminate|]. rewrite Eobf3. eapply afin_step; [exact E4|discriminate|exact E6]. }
      split; [rewrite S6; exact Ef|]. split; [assumption|]. split; [assumption|]. split; [|assumption].
      intros c' Hc. assert (Al6 : oget (s_objs (a_sys x6)) (c_data c') <> None) by (rewrite S6 in *; eapply tab_alive; eauto).
      pose proof (K6 c' Hc) as Hc5. rewrite S5 in Hc5. pose proof (kd_trans _ _ _ K4' Hc5) as [c3 [H3 [Hk3 Hd3]]].
      rewrite (cm_trk _ _ C6) by assumption. destruct (Kd3 c3 H3) as [Hc2|[_ [Hk Hd]]].
      * rewrite Ct2 in Hc2. destruct Hc2 as [c1 [H1 [Hk1 Hd1]]]. pose proof (Old _ H1) as Hne. assert (Hne' : c_data c' <> o) by congruence.
        rewrite aput_other by (rewrite <- Hk3, <- Hk1; apply Miss; assumption). rewrite Ho5 by assumption.
        assert (Al4 : oget (s_objs (a_sys x4)) (c_data c') <> None) by (rewrite <- S5; apply (cm_obj _ _ C6); assumption).
        rewrite (cm_trk _ _ C4) by assumption. apply (cm_obj _ _ C4) in Al4. rewrite (cm_trk _ _ C3) by assumption.
        rewrite <- Hd3, <- Hd1, Tr2 by assumption. rewrite (cm_trk _ _ C1) by (eapply tab_alive; eauto).
        destruct (K1' _ H1) as [c0 [H0 [Hk0 Hd0]]]. rewrite <- Hd0, <- Hk3, <- Hk1, <- Hk0. apply HT. assumption.
      * assert (c_data c' = o) as -> by congruence. assert (c_key c' = k) as -> by (unfold k; congruence). rewrite aput_same. assumption.
    + (* somebody else: not with one thread *)
      exfalso. destruct (Hit3 ltac:(lia)) as [c2 [H2 Hk2]]. rewrite Ct2 in H2. exact (Miss _ H2 Hk2).
    + (* no bucket *)
      subst p3. destruct Cs3 as [[Q _]|[_ [obf3 [Ef3 Eobf2]]]]; [discriminate|].
      destruct (past_fin size g c false G _ _ x3 (PFull c o) d _ _ Logic.I I3 B3 T3 O3 Ef3) as [x4 [E4 [S4 [C4 [K4 [T4 O4]]]]]].
      destruct Wa as [v Wa]. exists x4, obf, false, (aput am k v). split.
      { rewrite Eobf. eapply afin_step; [exact E1|discriminate|]. rewrite Eobf1. eapply afin_step; [exact E2|discriminate|].
        rewrite Eobf2. eapply afin_step; [exact E3|discriminate|exact E4]. }
      split; [rewrite S4; exact Ef|]. split; [assumption|]. split; [assumption|]. split; [|assumption].
      assert (Kd : forall c', in_tab (s_ct (a_sys x4)) c' -> same_kd (s_ct (a_sys x1)) c').
      { intros c' Hc. pose proof (K4 c' Hc) as [c3 [H3 [Hk3 Hd3]]]. destruct (Kd3 c3 H3) as [Hc2|[Hv _]]; [|lia]. rewrite Ct2 in Hc2. destruct Hc2 as [c1 [H1 [Hk1 Hd1]]].
        exists c1. split; [assumption|]. split; congruence. }
      apply Fin; [assumption|]. intros c' Hc. assert (Al4 : oget (s_objs (a_sys x4)) (c_data c') <> None) by (rewrite S4 in *; eapply tab_alive; eauto).
      rewrite (cm_trk _ _ C4) by assumption. apply (cm_obj _ _ C4) in Al4. rewrite (cm_trk _ _ C3) by assumption.
      destruct (Kd c' Hc) as [c1 [H1 [_ Hd1]]]. rewrite <- Hd1. apply Tr2. assumption.
  - (* a session *)
    assert (Ei : forall done, tstep g s Idle (mkChoice c done false) = Ok (s1, PBody c o, ob1)).
    { intro done. cbn [tstep a_call]. fold now k. rewrite El. cbn [obind]. destruct (o =? 0) eqn:E0; [lia|reflexivity]. }
    destruct (plain_step size g tr x Idle d c false _ _ _ G I B T O ltac:(discriminate) ltac:(discriminate) (Ei false)) as [x1 [E1 [S1 [C1 [K1 [I1 [B1 [T1 O1]]]]]]]]. subst s1.
    assert (K1' : tabs x x1) by (eapply tabs_of; [exact K1|discriminate]).
    pose proof (HA _ _ _ I1) as A1. pose proof (At_Link _ _ _ _ _ _ A1) as L1.
    destruct (At_obj _ _ _ _ _ _ A1 ltac:(lia)) as [b [Hb Hsm]]. rewrite sput_same in Hsm. assert (Hab : abs b = st) by congruence.
    pose proof (abs_state _ _ (v_good _ _ _ _ _ I1 _ _ Hb)) as HS. rewrite Hab in HS.
    destruct (lookup_found _ _ _ _ _ _ _ _ I El Ho) as [ch [Hch [Hkh Hdh]]].
    assert (Htrk : trk_ok (tget (a_trk x1) o) (am k)).
    { destruct (K1' _ Hch) as [c0 [H0 [Hk0 Hd0]]]. rewrite (cm_trk _ _ C1) by congruence. rewrite <- Hdh, <- Hkh, <- Hd0, <- Hk0. apply HT. assumption. }
    destruct (body_asm size x1 c o d b (am k) T1 Hb Htrk) as [x2 [done [new [Ea [S2 [Hseen [Hn2 Ho2]]]]]]].
    { destruct c as [now' k' v want|now' k'|now' k' d']; cbn [orderly c_now c_k] in *; subst now k; [|exact Logic.I|]; rewrite Cs in Hor; destruct (am k'); auto.
      intro Hv. destruct st as [l1|v1|]; [destruct HS; congruence|assumption|congruence]. }
    destruct (Tot done) as [sf [obf [Ef If]]]. pose proof Ef as Ef0. destruct (fin_inv _ _ _ _ _ _ _ Ef) as [s1' [p1' [ob1' [Et1 Cs1]]]]. rewrite (Ei done) in Et1. injection Et1 as <- <- <-.
    destruct Cs1 as [[Q _]|[_ [obf1 [Ef1 Eobf]]]]; [discriminate|].
    destruct (body_end size g _ _ x1 x2 c o d done _ _ G I1 B1 T1 O1 Ea Ef1) as [x3 [E3 [S3 [C3 [K3 [T3 O3]]]]]].
    assert (TI3 : TI x3 (aput am k new)).
    { intros c' Hc. assert (Al3 : oget (s_objs (a_sys x3)) (c_data c') <> None) by (rewrite S3 in *; eapply tab_alive; eauto).
      rewrite (cm_trk _ _ C3) by assumption. pose proof (K3 c' Hc) as Hc1. rewrite S2 in Hc1. destruct Hc1 as [c1 [H1 [Hk1 Hd1]]].
      destruct (Z.eq_dec (c_data c') o) as [E|Hne].
      - assert (c_key c' = k) as ->.
        { rewrite <- Hk1, <- Hkh. eapply data_unique; [exact I1|assumption|assumption|congruence]. }
        rewrite aput_same, E. assumption.
      - rewrite aput_other.
        + rewrite Ho2 by assumption. rewrite (cm_trk _ _ C1) by (rewrite <- S2; apply (cm_obj _ _ C3); assumption).
          destruct (K1' _ H1) as [c0 [H0 [Hk0 Hd0]]]. rewrite <- Hd1, <- Hk1, <- Hd0, <- Hk0. apply HT. assumption.
        + intro E. apply Hne. rewrite <- Hd1, <- Hdh. eapply key_unique; [exact L1|assumption|assumption|congruence]. }
    assert (Wa : exists am', TI x3 am' /\ watch (zlen (a_pool x) < 2) (g_ttl g) sm am c d done am').
    { destruct c as [now' k' v want|now' k'|now' k' d']; cbn [seen c_now c_k] in *; subst now k.
      - destruct Hseen as [-> Hs]. destruct (am k') as [fs|] eqn:Eam.
        + destruct Hs as [f [Hp ->]]. eexists. split; [exact TI3|]. eapply wa_again; eauto.
        + subst new. exists am. split; [|eapply wa_again_not; eauto]. eapply TI_ext; [exact TI3|]. intro k0. rewrite <- Eam, aput_id. reflexivity.
      - destruct Hseen as [-> ->]. exists am. split; [|constructor]. eapply TI_ext; [exact TI3|]. intro k0. rewrite aput_id. reflexivity.
      - destruct st as [l|v|].
        + destruct HS as [Hs _]. rewrite Hs in Hseen. destruct Hseen as [-> ->]. eexists. split; [exact TI3|]. apply wa_store. intros v Hv. congruence.
        + destruct HS as [Hs _]. rewrite Hs in Hseen. destruct (am k') as [fs|] eqn:Eam.
          * destruct Hseen as [f [Hp [-> Hd]]]. eexists. split; [exact TI3|]. eapply wa_more; eauto.
          * destruct Hseen as [-> ->]. exists am. split; [|eapply wa_more_not; eauto]. eapply TI_ext; [exact TI3|]. intro k0. rewrite <- Eam, aput_id. reflexivity.
        + rewrite HS in Hseen. destruct Hseen as [-> ->]. eexists. split; [exact TI3|]. apply wa_store. intros v Hv. congruence. }
    destruct Wa as [am' [HTI Hw]]. exists x3, obf, done, am'. split; [rewrite Eobf; eapply afin_step; [exact E1|discriminate|exact E3]|].
    split; [rewrite S3; exact Ef0|]. auto.
Qed.

(** ** Any number of calls *)
Lemma served_run size g l : forall tr x sm am t0, conf_seq g -> 0 <= g_ttl g < two64 -> 0 <= t0 -> clock t0 l ->
  Inv g tr (a_sys x) [Idle] [] -> Bk g (a_sys x) -> Link g t0 (a_sys x) sm -> TOk size x -> owned x -> TI x am ->
  (forall l1 c d l2 ans x1 m1 am1, l = l1 ++ (c, d) :: l2 -> served g x sm am l1 ans x1 m1 am1 -> orderly (g_ttl g) m1 am1 c d) ->
  exists ans x' m' am', served g x sm am l ans x' m' am'.
Proof.
  induction l as [|[c d] l IH]; intros tr x sm am t0 Gs Ht Ht0 Hc I B L T O HT Hor; [exists [], x, sm, am; constructor|].
  destruct Hc as [Hc1 Hc2]. assert (Hn : 0 <= c_now c < two64) by lia. pose proof (Link_later g t0 (c_now c) (a_sys x) sm L (proj1 Hc1)) as L0.
  assert (Oc : orderly (g_ttl g) sm am c d) by (eapply (Hor []); [reflexivity|constructor]).
  assert (Tot : forall done, exists s' ob, finish 12 g (a_sys x) Idle (mkChoice c done false) = Ok (s', ob) /\ Inv g (tr ++ ob) s' [Idle] []).
  { intro done. destruct (call_ok g tr (a_sys x) sm c done Gs Ht Hn I B L0) as [an [sm' [_ [s' [ob [E [I' _]]]]]]]. rewrite call_fin in E. exists s', ob. split; assumption. }
  destruct (acall_sim 8 size g tr x sm am c d Gs Ht Hn I B L0 T O HT Oc Tot) as [x1 [ob [done [am1 [E [Ep [T1 [O1 [HT1 Hw]]]]]]]]].
  rewrite <- acall_fin in E. rewrite <- call_fin in Ep.
  destruct (call_ok g tr (a_sys x) sm c done Gs Ht Hn I B L0) as [an [sm1 [Sp [s1 [ob1 [E1 [I1 [B1 [L1 [R1 R2]]]]]]]]]].
  rewrite Ep in E1. assert (s1 = a_sys x1 /\ ob1 = ob) as (-> & ->) by (split; congruence).
  destruct (IH _ _ _ _ _ Gs Ht (proj1 Hn) Hc2 I1 B1 L1 T1 O1 HT1) as [ans [x' [m' [am' Hs]]]].
  { intros l1 c' d' l2 ans x2 m2 am2 El Hs. eapply (Hor ((c, d) :: l1)); [rewrite El; reflexivity|]. econstructor; eauto. }
  exists (an :: ans), x', m', am'. econstructor; eauto.
Qed.
Lemma served_ok g size l : conf_seq g -> clock 0 l ->
  (forall l1 c d l2 ans x m am, l = l1 ++ (c, d) :: l2 -> served g (asmCreate g size) sempty aempty l1 ans x m am -> orderly (g_ttl g) m am c d) ->
  exists ans x m am, served g (asmCreate g size) sempty aempty l ans x m am.
Proof.
  intros Gs Hc Hor. destruct (start_ok g 1 (proj1 Gs)) as [I B]. cbn [start w_sys w_pcs repeat] in *.
  assert (Ht : 0 <= g_ttl g < two64).
  { unfold g_ttl, u32. pose proof (Z.mod_pos_bound (g_millis g * 1000000) two32 ltac:(reflexivity)). unfold two64, two32 in *. lia. }
  apply (served_run (Z.of_nat size) g l [] (asmCreate g size) sempty aempty 0 Gs Ht ltac:(lia) Hc I B); [| | | |exact Hor].
  - destruct Gs as [[G1 _] _]. exists empty. cbn [asmCreate a_sys fragTableCreate s_ct].
    split; [apply create_inv; lia|]. split; [apply create_rel|]. split; [intros k e [H _]; discriminate|intros k x H; discriminate].
  - constructor; cbn [asmCreate a_pool a_trk]; [|constructor]. unfold createReassembler, zlen. rewrite repeat_length. cbn. lia.
  - intros o t Ht'. discriminate.
  - intros c Hc'. apply in_tab_stored in Hc'. cbn [asmCreate a_sys fragTableCreate s_ct] in Hc'.
    assert (Hc2 : In (c_data c) (stored_data (s_ct (fragTableCreate g)))) by exact Hc'. destruct (stored_alive _ _ _ _ _ _ I Hc2) as [b Hb]. discriminate.
Qed.

(** ** What a caller sees *)
Lemma spec_other nb nf ttl mtu m c done an m1 k : call_spec nb nf ttl mtu m c done an m1 -> c_k c <> k -> m1 k = m k.
Proof.
  intros H Hk. destruct c as [now k' v want|now k'|now k' d]; cbn [call_spec c_k] in *; inversion H; subst; try (apply sput_other; congruence); try reflexivity.
  destruct done; [apply sdel_other; congruence|apply sput_other; congruence].
Qed.
Lemma watch_other ni ttl m am c d done am1 k : watch ni ttl m am c d done am1 -> c_k c <> k -> am1 k = am k.
Proof. intros H Hk. inversion H; subst; cbn [c_k] in *; try reflexivity; apply aput_other; congruence. Qed.
Lemma anew_ok g k : forall x m am l ans x' m' am', served g x m am l ans x' m' am' -> m k = None -> anew k l ans.
Proof.
  intros x m am l ans x' m' am' H. induction H as [|x m am c d done r x1 ob an m1 am1 ans x2 m2 am2 Ho Ha Hr Hh Hs Hw _ IH]; intro Hk; [exact Logic.I|]. cbn [anew].
  destruct (list_eq_dec Z.eq_dec (c_k c) k) as [E|Hne]; [|apply IH; rewrite (spec_other _ _ _ _ _ _ _ _ _ _ Hs Hne); assumption].
  assert (Cn : current (g_ttl g) m (c_now c) (c_k c) = None) by (unfold current; rewrite E, Hk; reflexivity).
  destruct c as [now k' v want|now k'|now k' d']; cbn [call_spec c_k c_now] in *; unfold as_new; inversion Hs; subst; cbn [an_val an_back an_rc refused]; try congruence; auto.
Qed.
Lemma watched_ok g k v : forall x m am l ans x' m' am', served g x m am l ans x' m' am' -> forall t0 fs, m k = Some (mkSess (SValid v) t0) -> am k = Some fs -> watched (g_ttl g) k v t0 fs l ans.
Proof.
  intros x m am l ans x' m' am' H. induction H as [|x m am c d done r x1 ob an m1 am1 ans x2 m2 am2 Ho Ha Hr Hh Hs Hw Hrest IH]; intros t0 fs Hk Hf; [exact Logic.I|]. cbn [watched].
  destruct (list_eq_dec Z.eq_dec (c_k c) k) as [E|Hne].
  - intro Hl. assert (Cv : current (g_ttl g) m (c_now c) (c_k c) = Some (SValid v)).
    { unfold current. rewrite E, Hk. cbn [ss_last ss]. destruct (c_now c - t0 <=? g_ttl g) eqn:El; [reflexivity|lia]. }
    destruct c as [now k' v' want|now k'|now k' d']; cbn [call_spec c_k c_now expected] in *; subst k'.
    + assert (an = refused /\ m1 = sput m k (mkSess (SValid v) now)) as (-> & ->).
      { inversion Hs; subst; try congruence. rewrite Cv in H. injection H as <-. auto. }
      split; [reflexivity|]. inversion Hw; subst; try congruence.
      match goal with HF : am k = Some ?x, HP : frag_packet d ?f |- _ => exists f; assert (x = fs) as -> by congruence end. split; [assumption|]. apply IH; [apply sput_same|apply aput_same].
    + assert (an = mkAns 0 (Some v) [] /\ m1 = sput m k (mkSess (SValid v) now)) as (-> & ->).
      { inversion Hs; subst; try congruence; rewrite Cv in H; injection H as <-; auto. }
      split; [reflexivity|]. inversion Hw; subst. apply IH; [apply sput_same|assumption].
    + assert (an = mkAns 0 (Some v) [] /\ m1 = if done then sdel m k else sput m k (mkSess (SValid v) now)) as (-> & ->).
      { inversion Hs; subst; try congruence.
        - rewrite Cv in H. injection H as <-. auto.
        - destruct H as [H|[H _]]; congruence.
        - destruct H as [H|[H _]]; congruence.
        - destruct H as [H|[H _]]; congruence. }
      split; [reflexivity|]. inversion Hw; subst; try congruence.
      match goal with HF : am k = Some ?x, HP : frag_packet d' ?f |- _ => exists f; assert (x = fs) as -> by congruence end. split; [assumption|].
      match goal with HD : done = true <-> _ |- _ => split; intro HC; [apply HD in HC|assert (done <> true) by (rewrite HD; exact HC)] end.
      * subst done. eapply anew_ok; [exact Hrest|apply sdel_same].
      * destruct done; [congruence|]. apply IH; [apply sput_same|apply aput_same].
  - apply IH; [rewrite (spec_other _ _ _ _ _ _ _ _ _ _ Hs Hne); assumption|rewrite (watch_other _ _ _ _ _ _ _ _ _ Hw Hne); assumption].
Qed.
(** A first fragment accepted with no fragment before it. *)
Lemma first_watched g x m am now k v want d l an ans x' m' am' : served g x m am ((CFirst now k v want, d) :: l) (an :: ans) x' m' am' ->
  an_rc an = 0 -> current (g_ttl g) m now k = None -> 2 <= zlen (a_pool x) -> exists f, frag_packet d f /\ watched (g_ttl g) k v now [f] l ans.
Proof.
  intros H Hr Hc Hp. inversion H as [|? ? ? ? ? done ? x1 ob ? m1 am1 ? ? ? ? _ _ _ _ Hs Hw Hrest]; subst. cbn [call_spec] in Hs.
  inversion Hs; subst; try congruence; try discriminate. inversion Hw; subst; try congruence; try lia.
  exists f. split; [assumption|]. eapply watched_ok; [exact Hrest|apply sput_same|apply aput_same].
Qed.
