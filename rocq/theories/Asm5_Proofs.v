(** The fragment table with a reassembler and any number of threads, the fragments of each
    datagram in an order without gaps (C80, C73). *)
From Verif Require Import Base Lists IpKey_Model Conntrack_Model Conntrack_Spec Conntrack_Proofs Conntrack2_Proofs Reasm_Model Reasm_Spec Reasm_Proofs
  Frag_Model Frag_Spec Frag_Proofs Frag2_Proofs Frag3_Proofs FragEnd_Proofs Asm_Model Asm_Spec Asm_Proofs Asm2_Proofs Asm3_Proofs Asm4_Proofs.
From Coq Require Import Permutation.

(** ** Numbers of objects only grow *)
Lemma unlock_nx s o s' ob : fragDataUnlock s o = Ok (s', ob) -> s_next s' = s_next s.
Proof.
  unfold fragDataUnlock. intro H.
  repeat match type of H with
  | context [match ?x with _ => _ end] => destruct x; try discriminate
  end; injection H as <- _; reflexivity.
Qed.
Lemma lock_nx s o s' : fragDataLock s o = Ok s' -> s_next s' = s_next s.
Proof.
  unfold fragDataLock. intro H.
  repeat match type of H with
  | context [match ?x with _ => _ end] => destruct x; try discriminate
  end; injection H as <-; reflexivity.
Qed.
Lemma callbacks_nx ev : forall s s' ob, callbacks s ev = Ok (s', ob) -> s_next s' = s_next s.
Proof.
  induction ev as [|e ev IH]; intros s s' ob H; cbn [callbacks] in H; [injection H as <- _; reflexivity|].
  match type of H with obind ?x _ = _ => destruct x as [[s1 ob1]| | |] eqn:E end; try discriminate. cbn [obind] in H.
  destruct (callbacks s1 ev) as [[s2 ob2]| | |] eqn:E2; try discriminate. cbn [obind] in H. injection H as <- _.
  rewrite (IH _ _ _ E2). destruct e as [o|b|[b|]]; [exact (unlock_nx _ _ _ _ E)| | |]; injection E as <- _; reflexivity.
Qed.
Lemma table_nx s o s' v ob : table_op s o = Ok (s', v, ob) -> s_next s' = s_next s.
Proof.
  unfold table_op. destruct (cstep (s_ct s) o) as [[[t v0] ev]| | |]; try discriminate. cbn [obind].
  destruct (callbacks (set_ct s t) ev) as [[s1 ob1]| | |] eqn:E; try discriminate. cbn [obind]. intro H. injection H as <- _ _.
  exact (callbacks_nx _ _ _ _ E).
Qed.
Lemma lookup_nx s now k s' o ob : lookup_op s now k = Ok (s', o, ob) -> s_next s' = s_next s.
Proof.
  unfold lookup_op. destruct (table_op s (OLookup now k)) as [[[s1 o1] ob1]| | |] eqn:E; try discriminate. cbn [obind].
  destruct (o1 =? 0); [intro H; injection H as <- _ _; exact (table_nx _ _ _ _ _ E)|].
  destruct (fragDataLock s1 o1) as [s2| | |] eqn:E2; try discriminate. cbn [obind]. intro H. injection H as <- _ _.
  rewrite (lock_nx _ _ _ E2). exact (table_nx _ _ _ _ _ E).
Qed.
Lemma insert_nx g s now k o st s' v ob : insert_op g s now k o st = Ok (s', v, ob) -> s_next s <= s_next s'.
Proof.
  unfold insert_op. destruct (ctInsertWithTTL _ _ _ _ _ _) as [[[t v0] ev]| | |]; try discriminate. cbn [obind]. intro H.
  rewrite (table_nx _ _ _ _ _ H). cbn. lia.
Qed.
Lemma tstep_nx g s p a s' p' ob : tstep g s p a = Ok (s', p', ob) -> s_next s <= s_next s'.
Proof.
  intro H. destruct p as [|c|c o|c o|c o|c|c o|c o|c o l|c l|c o|c o|c o|c o|c o l|c l|c o f|c o f rc v|c o rc v]; cbn [tstep] in H.
  all: try (match type of H with
    | obind ?x _ = _ => destruct x as [q| | |] eqn:E; try discriminate; cbn [obind] in H
    end).
  - destruct q as [[s1 o] ob1]. rewrite <- (lookup_nx _ _ _ _ _ _ E). destruct (o =? 0); [destruct (a_call a)|]; injection H as <- _ _; lia.
  - destruct (s_fdfree s <=? 0); injection H as <- _ _; cbn; lia.
  - destruct q as [[s1 rc] ob1]. injection H as <- _ _. exact (insert_nx _ _ _ _ _ _ _ _ _ E).
  - injection H as <- _ _. rewrite (lock_nx _ _ _ E). lia.
  - destruct q as [s1 ob1]. injection H as <- _ _. rewrite (unlock_nx _ _ _ _ E). lia.
  - destruct q as [[s1 o] ob1]. rewrite <- (lookup_nx _ _ _ _ _ _ E). destruct (o =? 0); injection H as <- _ _; lia.
  - destruct q as [s1 ob1]. injection H as <- _ _. rewrite (unlock_nx _ _ _ _ E). lia.
  - destruct (oget (s_objs s) o) as [b|]; [|discriminate]. destruct c as [now k v want|now k|now k d].
    + destruct (o_state b); injection H as <- _ _; cbn; lia.
    + destruct (o_state b); injection H as <- _ _; cbn; lia.
    + destruct (o_state b); try (injection H as <- _ _; lia). destruct (a_done a); [|injection H as <- _ _; lia].
      destruct (table_op s (ORemove now k)) as [[[s1 v] ob1]| | |] eqn:E; try discriminate. cbn [obind] in H. injection H as <- _ _.
      cbn [inc_reas s_next]. rewrite (table_nx _ _ _ _ _ E). lia.
  - destruct q as [s1 ob1]. injection H as <- _ _. rewrite (unlock_nx _ _ _ _ E). lia.
  - destruct c as [now k v [|]|now k|now k d]; injection H as <- _ _; cbn; lia.
  - destruct (oget (s_objs s) o) as [b|]; [|discriminate]. destruct (o_state b), c as [now k v want|now k|now k d];
      try (injection H as <- _ _; cbn; lia).
    destruct (g_mtu g <? zlen d); injection H as <- _ _; cbn; lia.
  - destruct (oget (s_objs s) o) as [b|]; [|discriminate]. destruct (o_val b) as [v|]; [|discriminate]. injection H as <- _ _. lia.
  - destruct c as [now k v want|now k|now k d]; try discriminate. destruct (s_frfree s <=? 0); injection H as <- _ _; cbn; lia.
  - destruct (oget (s_objs s) o) as [b|]; [|discriminate]. injection H as <- _ _. cbn. lia.
  - destruct q as [s1 ob1]. injection H as <- _ _. rewrite (unlock_nx _ _ _ _ E). lia.
  - injection H as <- _ _. cbn. lia.
  - destruct (oget (s_objs s) o) as [b|]; [|discriminate]. destruct (o_state b); [| |]; try (destruct (o_val b) as [v|]; [|discriminate]);
      injection H as <- _ _; cbn; lia.
  - injection H as <- _ _. cbn. lia.
  - destruct q as [s1 ob1]. injection H as <- _ _. rewrite (unlock_nx _ _ _ _ E). lia.
Qed.
Lemma gc_same s i now s' ob : gc_bucket s i now = Ok (s', ob) -> s_next s' = s_next s /\ s_reassembled s' = s_reassembled s.
Proof.
  unfold gc_bucket. destruct (aget (t_buckets (s_ct s)) i) as [b| | |]; try discriminate. cbn [obind]. destruct (bucketGC b now) as [[[b' ev] n] k]. intro H.
  split; [exact (callbacks_nx _ _ _ _ H)|exact (callbacks_reas _ _ _ _ H)].
Qed.

(** ** A removed key *)
Lemma remove_free t now k t' ev : winv t -> ctRemove t now k = Ok (t', ev) -> forall now', exists t2 ev2, ctLookup t' now' k = Ok (t2, 0, ev2).
Proof.
  intros W H now'. unfold ctRemove in H. destruct (slot (t_buckets t) k) as [i| | |] eqn:Es; try discriminate. cbn [obind] in H.
  destruct (aget (t_buckets t) i) as [b| | |] eqn:Eb; try discriminate. apply Lists.aget_ok in Eb. cbn [obind] in H.
  destruct (lookupBucket b now) as [[b1 ev1] n] eqn:HL. destruct (lookupBucket_spec _ _ _ _ _ HL (W _ _ Eb)) as [L1 _].
  assert (F : forall b' st, wfb b' -> (forall c, In c (bents b') <-> In c (bents b1) /\ c_key c <> k) ->
    exists t2 ev2, ctLookup (mkCt (zupd (t_buckets t) i b') st) now' k = Ok (t2, 0, ev2)).
  { intros b' st W' Hin. unfold ctLookup. cbn [t_buckets t_stats].
    assert (Es' : slot (zupd (t_buckets t) i b') k = Ok i) by (unfold slot in *; rewrite zlen_zupd; exact Es). rewrite Es'. cbn [obind].
    assert (Hb : znth (zupd (t_buckets t) i b') i = Some b') by (apply znth_zupd_eq; apply znth_some_range in Eb; lia).
    apply Lists.aget_ok in Hb. rewrite Hb. cbn [obind]. destruct (lookupBucket b' now') as [[b2 ev2] n2] eqn:HL2.
    destruct (lookupBucket_spec _ _ _ _ _ HL2 W') as [L2 [_ [L3 _]]]. destruct (search b2 k now') as [[b3 d]|] eqn:HS; [|eauto].
    destruct (search_some _ _ _ _ _ HS L2) as [_ [_ [_ [c [H1 [H2 _]]]]]]. rewrite L3 in H1. apply filter_In in H1. destruct H1 as [H1 _]. apply Hin in H1. tauto. }
  destruct (key_eqb k (c_key (b_main b1))) eqn:Ek.
  - apply key_eqb_true in Ek. destruct (remove_main_spec b1 k L1 (eq_sym Ek)) as [W' [Hin _]]. injection H as <- _. apply F; assumption.
  - apply key_eqb_false in Ek. destruct (remove_chain (b_chain b1) k) as [l' ev'] eqn:Er.
    destruct (remove_other_spec b1 k l' ev' L1 ltac:(congruence) Er) as [W' [Hin _]]. injection H as <- _. apply F; assumption.
Qed.

(** ** What the trackers have seen *)
Definition insp (x : asys) (p : pc) (d : list Z) : option (Z * list Z) :=
  match p with
  | PBody c o =>
      match tget (a_trk x) o, oget (s_objs (a_sys x)) o with
      | Some _, Some b =>
          match c with
          | CGet _ _ => None
          | CFirst _ _ _ _ => Some (o, d)
          | CStore _ _ d' => match o_state b with Valid => Some (o, d') | _ => None end
          end
      | _, _ => None
      end
  | _ => None
  end.
Definition store_pc (p : pc) : Prop := exists now k d o, p = PBody (CStore now k d) o.
Definition HI (h : history) (x : asys) : Prop :=
  (forall o t, tget (a_trk x) o = Some t -> tracked (of_obj h o) t) /\ (forall o f, In (o, f) h -> o < s_next (a_sys x)).
Lemma of_obj_app h o o' f : of_obj (h ++ [(o, f)]) o' = if o =? o' then of_obj h o' ++ [f] else of_obj h o'.
Proof. unfold of_obj. rewrite filter_app, map_app. cbn [filter fst]. destruct (o =? o'); [reflexivity|apply app_nil_r]. Qed.
Lemma of_obj_new h x o : HI h x -> s_next (a_sys x) <= o -> of_obj h o = [].
Proof.
  intros [_ H] Ho. unfold of_obj. induction h as [|[o' f] h IH]; [reflexivity|]. cbn [filter fst]. destruct (o' =? o) eqn:E.
  - specialize (H o' f (or_introl eq_refl)). lia.
  - apply IH. intros q f' Hq. apply (H q f'). right. assumption.
Qed.

(** The critical section without the reassembler *)
Lemma asm_not size x p d : TOk size x -> (forall c o, p = PBody c o -> oget (s_objs (a_sys x)) o <> None) -> insp x p d = None ->
  exists x1, assemble x p d = Ok (x1, false) /\ a_sys x1 = a_sys x /\ (forall o t, tget (a_trk x1) o = Some t -> tget (a_trk x) o = Some t).
Proof.
  intros T A H. destruct p as [|c|c o|c o|c o|c|c o|c o|c o l|c l|c o|c o|c o|c o|c o l|c l|c o f|c o f rc v|c o rc v]; try (exists x; split; [reflexivity|]; split; [reflexivity|]; auto; fail).
  specialize (A c o eq_refl). cbn [insp] in H. cbn [assemble]. destruct (tget (a_trk x) o) as [t|] eqn:Et; [|exists x; auto].
  destruct (oget (s_objs (a_sys x)) o) as [b|] eqn:Eb; [|congruence]. destruct c as [now k v want|now k|now k d']; [discriminate|exists x; auto|].
  assert (E : exists x1, Ok (endTracker x o, false) = Ok (x1, false) /\ a_sys x1 = a_sys x /\ (forall o t, tget (a_trk x1) o = Some t -> tget (a_trk x) o = Some t)).
  { exists (endTracker x o). split; [reflexivity|]. split; [apply end_sys|]. intros o' t' Ht. rewrite end_get in Ht by apply T. destruct (o =? o'); [discriminate|assumption]. }
  destruct (o_state b); [discriminate|exact E|exact E].
Qed.
(** ... and with it *)
Lemma asm_frag size x p d h o dd : TOk size x -> HI h x -> insp x p d = Some (o, dd) -> fits (of_obj h o) dd ->
  exists x1 done f, assemble x p d = Ok (x1, done) /\ a_sys x1 = a_sys x /\ frag_packet dd f /\
    (done = true <-> store_pc p /\ complete (of_obj h o ++ [f])) /\
    (forall o' t, tget (a_trk x1) o' = Some t -> tracked (of_obj (h ++ [(o, f)]) o') t) /\
    (forall o', tget (a_trk x1) o' <> None -> tget (a_trk x) o' <> None).
Proof.
  intros T [HT HN] H Hf. destruct p as [|c|c o1|c o1|c o1|c|c o1|c o1|c o1 l|c l|c o1|c o1|c o1|c o1|c o1 l|c l|c o1 f|c o1 f rc v|c o1 rc v]; try discriminate.
  cbn [insp] in H. destruct (tget (a_trk x) o1) as [t|] eqn:Et; [|discriminate]. destruct (oget (s_objs (a_sys x)) o1) as [b|] eqn:Eb; [|discriminate].
  assert (o1 = o) as ->.
  { destruct c as [now k v want|now k|now k d']; [congruence|discriminate|]. destruct (o_state b); congruence. }
  destruct (handle_run size x o t dd (of_obj h o) T Et (HT _ _ Et) Hf) as [x1 [r [f [E [Hp [Hr [S1 [[t1 [H1 H1']] H2]]]]]]]].
  assert (Trk : forall o' t, tget (a_trk x1) o' = Some t -> tracked (of_obj (h ++ [(o, f)]) o') t).
  { intros o' t' Ht'. rewrite of_obj_app. destruct (o =? o') eqn:Eo.
    - apply Z.eqb_eq in Eo. subst o'. assert (t' = t1) as -> by congruence. assumption.
    - rewrite H2 in Ht' by lia. apply HT. assumption. }
  assert (Dom : forall o', tget (a_trk x1) o' <> None -> tget (a_trk x) o' <> None).
  { intros o' Ho'. destruct (Z.eq_dec o' o) as [->|Hne]; [congruence|]. rewrite <- (H2 _ Hne). assumption. }
  cbn [assemble]. rewrite Et. destruct c as [now k v want|now k|now k d']; [| discriminate|].
  - assert (dd = d) as -> by congruence. rewrite E. cbn [obind fst]. exists x1, false, f. repeat (split; [first [reflexivity|assumption]|]).
    split; [|split; assumption]. split; [discriminate|]. intros [[now' [k' [d' [o' X]]]] _]. discriminate.
  - rewrite Eb. destruct (o_state b); try discriminate. assert (d' = dd) as -> by congruence. rewrite E. cbn [obind fst snd].
    exists x1, (r =? 0), f. repeat (split; [first [reflexivity|assumption]|]). split; [|split; assumption].
    rewrite Z.eqb_eq, Hr. split; [intro Hc; split; [exists now, k, dd, o; reflexivity|assumption]|intros [_ Hc]; assumption].
Qed.

(** ** Behind the critical section: trackers are given up, and one may be new *)
Lemma atstep_make g x p d c st x1 done s' p' ob : assemble x p d = Ok (x1, done) -> tstep g (a_sys x1) p (mkChoice c done st) = Ok (s', p', ob) ->
  exists x', atstep g x p d c st = Ok (x', p', ob).
Proof. intros Ea Et. unfold atstep. rewrite Ea. cbn [obind]. rewrite Et. cbn [obind]. eexists. reflexivity. Qed.
Lemma atstep_trk size g x p d c st x' p' ob : TOk size x -> atstep g x p d c st = Ok (x', p', ob) ->
  exists x1 done, assemble x p d = Ok (x1, done) /\ tstep g (a_sys x1) p (mkChoice c done st) = Ok (a_sys x', p', ob) /\
    (forall o t, tget (a_trk x') o = Some t -> tget (a_trk x1) o = Some t \/ o = s_next (a_sys x1) /\ exists q q', raNew q = (Some t, q')).
Proof.
  intros T H. destruct (atstep_inv _ _ _ _ _ _ _ _ _ H) as [x1 [done [s' [Ea [Et Ex]]]]]. exists x1, done. split; [assumption|].
  destruct (assemble_ok _ _ _ _ _ _ T Ea) as [T1 _].
  set (n := match p with PUnl _ _ 1 _ => 1 | _ => 0 end) in *.
  set (y := mkA s' (a_pool x1) (a_trk x1) (u32 (a_frags x1 + n))) in *.
  assert (Ty : TOk size y) by (destruct T1; constructor; assumption).
  set (l := unlocked g (a_sys x1) p (mkChoice c done st)) in *. set (x2 := endAll y l) in *.
  destruct (endAll_sys l y) as [S2 _]. fold x2 in S2. change (a_sys y) with s' in S2.
  assert (G2 : forall o t, tget (a_trk x2) o = Some t -> tget (a_trk x1) o = Some t).
  { intros o t Hg. unfold x2 in Hg. rewrite (endAll_get l y o (to_nodup _ _ Ty)) in Hg. change (a_trk y) with (a_trk x1) in Hg.
    destruct (oget (s_objs (a_sys y)) o); [assumption|]. destruct (in_dec Z.eq_dec o l); [discriminate|assumption]. }
  assert (Plain : x' = x2 -> tstep g (a_sys x1) p (mkChoice c done st) = Ok (a_sys x', p', ob) /\
    (forall o t, tget (a_trk x') o = Some t -> tget (a_trk x1) o = Some t \/ o = s_next (a_sys x1) /\ exists q q', raNew q = (Some t, q'))).
  { intros ->. rewrite S2. split; [assumption|]. intros o t Ht. left. apply G2. assumption. }
  cbv zeta in Ex. destruct p as [ |c0| | | | | | | | | | | | | | | | | ]; try (apply Plain; exact Ex). destruct p' as [ | |c1 o1| | | | | | | | | | | | | | | | ]; try (apply Plain; exact Ex).
  assert (Eo : o1 = s_next (a_sys x1)).
  { cbn [tstep] in Et. destruct (s_fdfree (a_sys x1) <=? 0); [congruence|]. injection Et as <- <- <- _. reflexivity. }
  destruct (new_sys x2 o1) as [S3 _]. rewrite Ex, S3, S2. split; [assumption|]. intros o t Ht. unfold newTracker in Ht.
  destruct (raNew (a_pool x2)) as [[t1|] q] eqn:En; cbn [a_trk tget fst snd] in Ht; [|left; apply G2; assumption].
  destruct (o1 =? o) eqn:E; [|left; apply G2; assumption]. right. split; [lia|]. assert (t1 = t) as -> by congruence. eauto.
Qed.

(** ** Executions *)
Lemma insp_ok w i c d st p d0 : znth (aw_pcs w) i = Some (p, d0) -> inspected w (AThread i c d st) = insp (aw_sys w) p (match p with Idle => d | _ => d0 end).
Proof. intro H. cbn [inspected]. rewrite H. destruct p; reflexivity. Qed.
Lemma may_ok w i c d st p d0 : znth (aw_pcs w) i = Some (p, d0) -> may_end w (AThread i c d st) <-> store_pc p.
Proof.
  intro H. cbn [may_end]. rewrite H. split.
  - intros [now [k [d' [o [x E]]]]]. exists now, k, d', o. congruence.
  - intros [now [k [d' [o ->]]]]. exists now, k, d', o, d0. reflexivity.
Qed.
Lemma counts_not s p c st : counts s p (mkChoice c false st) = false.
Proof. destruct p as [|?|? ?|? ?|? ?|?|? ?|[]  o| | | | | | | | | | |]; try reflexivity. cbn. destruct (oget (s_objs s) o) as [b|]; [|reflexivity]. destruct (o_state b); reflexivity. Qed.
Lemma counts_insp x p d o dd done c st : insp x p d = Some (o, dd) -> store_pc p -> counts (a_sys x) p (mkChoice c done st) = done.
Proof.
  intros H [now [k [d' [o' ->]]]]. cbn [insp] in H. cbn [counts a_done]. destruct (tget (a_trk x) o'); [|discriminate].
  destruct (oget (s_objs (a_sys x)) o') as [b|]; [|discriminate]. destruct (o_state b); [reflexivity|discriminate|discriminate].
Qed.
Lemma HI_next (h : history) x x' : (forall o f, In (o, f) h -> o < s_next (a_sys x)) -> s_next (a_sys x) <= s_next (a_sys x') -> (forall o f, In (o, f) h -> o < s_next (a_sys x')).
Proof. intros H L o f Hi. specialize (H _ _ Hi). lia. Qed.

Definition OInv (h : history) (n : Z) (w : aworld) : Prop := HI h (aw_sys w) /\ s_reassembled (a_sys (aw_sys w)) = u32 n.

(** One step: what is known about it *)
Lemma ostep g size n tr h m w l : conf_ok g -> aexec g (astart g size n) tr w -> OInv h m w ->
  (forall y, awstep g w l = Some y -> in_order h w l ->
     (exists w' ob, y = Ok (w', ob)) \/ (y = UB /\ exists i c d st o, l = AThread i c d st /\ window (plain w) i o /\ ~ allocated_obj (plain w) o)) /\
  (forall w' ob, awstep g w l = Some (Ok (w', ob)) ->
     (inspected w l = None -> OInv h m w') /\
     (forall o d f, inspected w l = Some (o, d) -> frag_packet d f -> fits (of_obj h o) d ->
        (~ (may_end w l /\ complete (of_obj h o ++ [f])) -> OInv (h ++ [(o, f)]) m w') /\
        (may_end w l -> complete (of_obj h o ++ [f]) -> OInv (h ++ [(o, f)]) (m + 1) w'))).
Proof.
  intros G E [H R]. destruct (aexec_ok g size n _ _ _ G E eq_refl) as [E1 [T [O _]]]. pose proof (exec_ok g n _ _ _ G E1 eq_refl) as WI.
  pose proof (proj1 WI) as I. cbn [plain w_sys w_pcs] in I.
  destruct l as [i c d st|i now].
  - destruct (znth (aw_pcs w) i) as [[p d0]|] eqn:Hp; [|cbn [awstep]; rewrite Hp; split; intros; discriminate].
    assert (Hp' : znth (map fst (aw_pcs w)) i = Some p) by (rewrite znth_map, Hp; reflexivity).
    unfold in_order. rewrite (insp_ok _ _ c d st _ _ Hp). setoid_rewrite (may_ok _ _ c d st _ _ Hp). set (data := match p with Idle => d | _ => d0 end).
    assert (A : forall c o, p = PBody c o -> oget (s_objs (a_sys (aw_sys w))) o <> None).
    { intros c' o ->. assert (Al : allocated_obj (plain w) o).
      { apply (alive_iff g n tr (plain w) o G E1). right. exists (PBody c' o). split; [|reflexivity]. cbn [plain w_pcs]. eapply znth_In; eauto. }
      destruct Al as [b Hb]. rewrite (In_oget _ _ _ (v_nodup _ _ _ _ _ I) Hb). discriminate. }
    split.
    + intros y Hy Ho. cbn [awstep] in Hy. rewrite Hp in Hy. cbv zeta in Hy. fold data in Hy.
      assert (Asm : exists x1 done, assemble (aw_sys w) p data = Ok (x1, done) /\ a_sys x1 = a_sys (aw_sys w)).
      { destruct (insp (aw_sys w) p data) as [[o dd]|] eqn:Ei.
        - destruct (asm_frag _ _ _ _ _ _ _ T H Ei Ho) as [x1 [done [f [Ea [S1 _]]]]]. eauto.
        - destruct (asm_not _ _ _ _ T A Ei) as [x1 [Ea [S1 _]]]. eauto. }
      destruct Asm as [x1 [done [Ea S1]]].
      destruct (wstep g (plain w) (LThread i (mkChoice c done st))) as [r|] eqn:Ew.
      * destruct (wstep_ok g tr (plain w) _ r G WI Ew) as [[w' [ob [-> _]]]|[-> [j [a [c' [o [X [Hj Hn]]]]]]]].
        -- cbn [wstep plain w_pcs w_sys] in Ew. rewrite Hp' in Ew. rewrite <- S1 in Ew.
           destruct (tstep g (a_sys x1) p (mkChoice c done st)) as [[[s' p'] ob']| | |] eqn:Et; try discriminate.
           destruct (atstep_make _ _ _ _ _ _ _ _ _ _ _ Ea Et) as [x' Ex]. rewrite Ex in Hy. cbn [obind] in Hy. left. injection Hy as <-. eauto.
        -- injection X as <- <-. right. cbn [plain w_pcs] in Hj. assert (p = PInc c' o) as -> by congruence.
           assert (Et : tstep g (a_sys x1) (PInc c' o) (mkChoice c done st) = UB).
           { rewrite S1. cbn [tstep]. unfold fragDataLock. cbn [plain w_sys] in Hn. rewrite Hn. reflexivity. }
           unfold atstep in Hy. rewrite Ea in Hy. cbn [obind] in Hy. rewrite Et in Hy. cbn [obind] in Hy. split; [congruence|].
           exists i, c, d, st, o. split; [reflexivity|]. split; [exists c'; assumption|]. intros [b Hb]. cbn [plain w_sys] in Hb, Hn.
           rewrite (In_oget _ _ _ (v_nodup _ _ _ _ _ I) Hb) in Hn. discriminate.
      * cbn [wstep plain w_pcs] in Ew. rewrite Hp' in Ew. discriminate.
    + intros w' ob Hy. cbn [awstep] in Hy. rewrite Hp in Hy. cbv zeta in Hy. fold data in Hy.
      destruct (atstep g (aw_sys w) p data c st) as [[[x' p'] ob']| | |] eqn:Ex; try discriminate. cbn [obind] in Hy.
      assert (w' = mkAW x' (zupd (aw_pcs w) i (p', data))) as -> by congruence.
      destruct (atstep_trk _ _ _ _ _ _ _ _ _ _ T Ex) as [x1 [done [Ea [Et Tk]]]].
      pose proof (tstep_nx _ _ _ _ _ _ _ Et) as Nx. destruct (tstep_reas _ _ _ _ _ _ _ Et) as [Rs _]. split.
      * intro Ei. destruct (asm_not _ _ _ _ T A Ei) as [x1' [Ea' [S1 Sub]]]. rewrite Ea in Ea'. injection Ea' as <- ->.
        split; cbn [aw_sys].
        -- split; [|apply (HI_next _ (aw_sys w)); [apply H|rewrite <- S1; assumption]].
           intros o t Ht. destruct (Tk _ _ Ht) as [Ht1|[-> [q [q' Hq]]]]; [apply (proj1 H); apply Sub; assumption|].
           rewrite S1. rewrite (of_obj_new _ _ _ H) by lia. eapply tracked_new; eauto.
        -- rewrite Rs, counts_not, S1. assumption.
      * intros o dd f Ei Hf Hfit. destruct (asm_frag _ _ _ _ _ _ _ T H Ei Hfit) as [x1' [done' [f' [Ea' [S1 [Hf' [Hd [Sub Dom]]]]]]]].
        rewrite Ea in Ea'. injection Ea' as <- <-. rewrite (frag_packet_unique _ _ _ Hf' Hf) in *.
        assert (Op : o < s_next (a_sys (aw_sys w))).
        { destruct p as [|c'|c' o1|c' o1|c' o1|c'|c' o1|c' o1|c' o1 l'|c' l'|c' o1|c' o1|c' o1|c' o1|c' o1 l'|c' l'|c' o1 f1|c' o1 f1 rc v|c' o1 rc v]; try discriminate Ei.
          cbn [insp] in Ei. destruct (tget (a_trk (aw_sys w)) o1) as [t|] eqn:Eo; [|discriminate]. destruct (oget (s_objs (a_sys (aw_sys w))) o1) as [b|] eqn:Eb; [|discriminate].
          pose proof (v_ids _ _ _ _ _ I _ _ Eb). assert (o1 = o) as <-; [|lia].
          destruct c'; [congruence|discriminate|]. destruct (o_state b); congruence. }
        assert (HI' : HI (h ++ [(o, f)]) x').
        { split.
          - intros o' t Ht. destruct (Tk _ _ Ht) as [Ht1|[-> [q [q' Hq]]]]; [apply Sub; assumption|].
            rewrite S1. rewrite of_obj_app. destruct (o =? s_next (a_sys (aw_sys w))) eqn:Eo; [lia|]. rewrite (of_obj_new _ _ _ H) by lia. eapply tracked_new; eauto.
          - intros o' f2 Hi. rewrite S1 in Nx. apply in_app_iff in Hi. destruct Hi as [Hi|[X|[]]]; [apply (proj2 H) in Hi; lia|]. injection X as <- _. lia. }
        split.
        -- intro Hno. split; [assumption|]. cbn [aw_sys]. rewrite Rs. destruct done; [exfalso; apply Hno; apply Hd; reflexivity|]. rewrite counts_not, S1. assumption.
        -- intros Hs Hc. split; [assumption|]. cbn [aw_sys]. rewrite Rs. assert (done = true) as -> by (apply Hd; auto). rewrite S1, (counts_insp _ _ _ _ _ _ _ _ Ei Hs), R.
           apply u32_add_u32.
  - cbn [awstep inspected may_end]. cbv zeta. destruct ((0 <=? i) && (i <? zlen (t_buckets (s_ct (a_sys (aw_sys w)))))) eqn:Ei; [|split; intros; discriminate]. split.
    + intros y Hy _. destruct (wstep g (plain w) (LStats i now)) as [r|] eqn:Ew; cbn [wstep plain w_sys] in Ew; rewrite Ei in Ew; [|discriminate].
      assert (Ew' : wstep g (plain w) (LStats i now) = Some r) by (cbn [wstep plain w_sys]; rewrite Ei; exact Ew).
      destruct (wstep_ok g tr (plain w) _ r G WI Ew') as [[w' [ob [-> _]]]|[-> [j [a [c' [o [X _]]]]]]]; [|discriminate].
      destruct (gc_bucket (a_sys (aw_sys w)) i now) as [[s' ob1]| | |]; try discriminate. cbn [obind] in Hy. left. injection Hy as <-. eauto.
    + intros w' ob Hy. split; [|intros; discriminate]. intros _. destruct (gc_bucket (a_sys (aw_sys w)) i now) as [[s' ob1]| | |] eqn:Hg; try discriminate. cbn [obind] in Hy.
      set (fr := match aget (t_buckets (s_ct (a_sys (aw_sys w)))) i with Ok b => let '(_, ev, _, _) := bucketGC b now in freed_data ev | _ => [] end) in *.
      set (y := mkA s' (a_pool (aw_sys w)) (a_trk (aw_sys w)) (a_frags (aw_sys w))) in *.
      assert (w' = mkAW (endAll y fr) (aw_pcs w)) as -> by congruence. destruct (gc_same _ _ _ _ _ Hg) as [N1 R1]. destruct (endAll_sys fr y) as [S2 _]. change (a_sys y) with s' in S2.
      assert (Ty : TOk (Z.of_nat size) y) by (destruct T; constructor; assumption).
      split; cbn [aw_sys]; rewrite ?S2; [|congruence]. split; [|rewrite S2; rewrite N1; apply H].
      intros o t Ht. rewrite (endAll_get fr y o (to_nodup _ _ Ty)) in Ht. apply (proj1 H). change (a_trk y) with (a_trk (aw_sys w)) in Ht.
      destruct (oget (s_objs (a_sys y)) o); [assumption|]. destruct (in_dec Z.eq_dec o fr); [discriminate|assumption].
Qed.

Lemma oexec_ok g size k w0 tr h n w : conf_ok g -> oexec g w0 tr h n w -> w0 = astart g size k -> aexec g w0 tr w /\ OInv h n w.
Proof.
  intros G E. induction E as [w|w tr h n w1 l ob w2 E IH S Hi|w tr h n w1 l ob w2 o d f E IH S Hi Hf Hfit Hno|w tr h n w1 l ob w2 o d f E IH S Hi Hf Hfit Hm Hc]; intros ->.
  - split; [constructor|]. split; [|reflexivity]. split; [intros o t Ht; discriminate|intros o f []].
  - destruct (IH eq_refl) as [A I]. split; [eapply ax_step; eassumption|]. destruct (ostep _ _ _ _ _ _ _ l G A I) as [_ X]. exact (proj1 (X _ _ S) Hi).
  - destruct (IH eq_refl) as [A I]. split; [eapply ax_step; eassumption|]. destruct (ostep _ _ _ _ _ _ _ l G A I) as [_ X]. exact (proj1 (proj2 (X _ _ S) _ _ _ Hi Hf Hfit) Hno).
  - destruct (IH eq_refl) as [A I]. split; [eapply ax_step; eassumption|]. destruct (ostep _ _ _ _ _ _ _ l G A I) as [_ X]. exact (proj2 (proj2 (X _ _ S) _ _ _ Hi Hf Hfit) Hm Hc).
Qed.

Lemma threads_ok g size k tr h n w : conf_ok g -> oexec g (astart g size k) tr h n w ->
  aexec g (astart g size k) tr w /\ s_reassembled (a_sys (aw_sys w)) = n mod two32 /\
  (forall l y, awstep g w l = Some y -> in_order h w l -> (forall r, y <> Ok r) ->
     exists i c d st o, l = AThread i c d st /\ window (plain w) i o /\ ~ allocated_obj (plain w) o).
Proof.
  intros G E. destruct (oexec_ok _ _ _ _ _ _ _ _ G E eq_refl) as [A [H R]]. split; [assumption|]. split; [exact R|].
  intros l y Hy Ho Hno. destruct (ostep g size k tr h n w l G A (conj H R)) as [X _]. destruct (X y Hy Ho) as [[w' [ob ->]]|[_ Y]]; [exfalso; eapply Hno; reflexivity|exact Y].
Qed.
Lemma threads_end g size k tr h n w i c d st now key d' o x f y : conf_ok g -> oexec g (astart g size k) tr h n w ->
  znth (aw_pcs w) i = Some (PBody (CStore now key d') o, x) -> inspected w (AThread i c d st) = Some (o, d') ->
  frag_packet d' f -> fits (of_obj h o) d' -> awstep g w (AThread i c d st) = Some y ->
  exists w' ob, y = Ok (w', ob) /\ (complete (of_obj h o ++ [f]) -> key_free w' key) /\
    (~ complete (of_obj h o ++ [f]) -> s_ct (a_sys (aw_sys w')) = s_ct (a_sys (aw_sys w))).
Proof.
  intros G E Hp Hi Hf Hfit Hy. destruct (oexec_ok _ _ _ _ _ _ _ _ G E eq_refl) as [A [H R]].
  destruct (ostep g size k tr h n w (AThread i c d st) G A (conj H R)) as [X _]. assert (Ho : in_order h w (AThread i c d st)) by (unfold in_order; rewrite Hi; assumption).
  destruct (X y Hy Ho) as [[w' [ob ->]]|[_ [i' [c' [d2 [st' [o' [El [[c'' W] _]]]]]]]]].
  2:{ injection El as <- _ _ _. cbn [plain w_pcs] in W. rewrite znth_map, Hp in W. discriminate. }
  exists w', ob. split; [reflexivity|]. destruct (aexec_ok g size k _ _ _ G A eq_refl) as [E1 [T [O _]]]. pose proof (proj1 (exec_ok g k _ _ _ G E1 eq_refl)) as I. cbn [plain w_sys w_pcs] in I.
  cbn [awstep] in Hy. rewrite Hp in Hy. cbv zeta in Hy. destruct (atstep g (aw_sys w) (PBody (CStore now key d') o) x c st) as [[[x' p'] ob']| | |] eqn:Ex; try discriminate. cbn [obind] in Hy.
  assert (w' = mkAW x' (zupd (aw_pcs w) i (p', x))) as -> by congruence. unfold key_free. cbn [aw_sys].
  destruct (atstep_trk _ _ _ _ _ _ _ _ _ _ T Ex) as [x1 [done [Ea [Et _]]]].
  rewrite (insp_ok _ _ c d st _ _ Hp) in Hi. destruct (asm_frag _ _ _ _ _ _ _ T H Hi Hfit) as [x1' [done' [f' [Ea' [S1 [Hf' [Hd _]]]]]]].
  rewrite Ea in Ea'. injection Ea' as <- <-. rewrite (frag_packet_unique _ _ _ Hf' Hf) in *. rewrite S1 in Et.
  cbn [insp] in Hi. destruct (tget (a_trk (aw_sys w)) o); [|discriminate]. cbn [tstep a_done] in Et. destruct (oget (s_objs (a_sys (aw_sys w))) o) as [b|]; [|discriminate].
  destruct (o_state b); try discriminate. destruct done.
  - split; [|intro Hno; exfalso; apply Hno; apply Hd; reflexivity]. intros _.
    destruct (table_op (a_sys (aw_sys w)) (ORemove now key)) as [[[s1 v] ob1]| | |] eqn:E2; try discriminate. cbn [obind] in Et.
    assert (a_sys x' = inc_reas s1) as -> by congruence. change (s_ct (inc_reas s1)) with (s_ct s1).
    apply table_op_ct in E2. destruct E2 as [ev E2]. cbn [cstep] in E2. destruct (ctRemove (s_ct (a_sys (aw_sys w))) now key) as [[t' ev']| | |] eqn:E3; try discriminate. cbn [obind] in E2.
    assert (t' = s_ct s1) as <- by congruence. exact (remove_free _ _ _ _ _ (v_wf _ _ _ _ _ I) E3).
  - split; [intro Hc; exfalso; assert (X1 : false = true) by (apply Hd; split; [exists now, key, d', o; reflexivity|assumption]); discriminate|].
    intros _. assert (a_sys x' = a_sys (aw_sys w)) as -> by congruence. reflexivity.
Qed.

(** ** Example and refutation *)
Fixpoint qrun (g : conf) (tr : list obs) (w : aworld) (ls : list alabel) : option (list obs * aworld) :=
  match ls with
  | [] => Some (tr, w)
  | l :: r => match inspected w l with
              | Some _ => None
              | None => match awstep g w l with Some (Ok (w', ob)) => qrun g (tr ++ ob) w' r | _ => None end
              end
  end.
Lemma qrun_exec g : forall ls w0 tr h n w tr' w', oexec g w0 tr h n w -> qrun g tr w ls = Some (tr', w') -> oexec g w0 tr' h n w'.
Proof.
  induction ls as [|l ls IH]; intros w0 tr h n w tr' w' E H; cbn [qrun] in H; [injection H as <- <-; assumption|].
  destruct (inspected w l) as [q|] eqn:Ei; [discriminate|]. destruct (awstep g w l) as [[[w1 ob]| | |]|] eqn:Es; try discriminate. eapply IH; [|exact H]. eapply ox_step; eassumption.
Qed.
Definition fa : Reasm_Spec.frag := Reasm_Spec.mkFrag 0 8 true.
Definition fb : Reasm_Spec.frag := Reasm_Spec.mkFrag 8 8 false.
Lemma fits_a : fits [] (pkt 0 8 true).
Proof.
  exists 16, fa. split; [unfold UINT_MAX; lia|]. split; [apply (pkt_frag 0 8 true); lia|]. split; [repeat constructor; cbn; try lia; discriminate|].
  intros fs1 f fs2 E (_ & a & c0 & (Ha & _) & _ & H & _). destruct fs1 as [|f1 [|f2 r]]; cbn [app] in E; [|discriminate|discriminate]. injection E as <- _. cbn in H. lia.
Qed.
Lemma fits_b : fits [fa] (pkt 1 8 false).
Proof.
  exists 16, fb. split; [unfold UINT_MAX; lia|]. split; [apply (pkt_frag 1 8 false); lia|]. split; [repeat constructor; cbn; try lia; discriminate|].
  intros fs1 f fs2 E (Hm & a & c0 & (Ha & _) & _ & H & _). destruct fs1 as [|f1 [|f2 [|]]]; cbn [app] in E; try discriminate.
  - injection E as <- _. cbn in H. lia.
  - injection E as <- <- _. discriminate.
Qed.
Lemma done_ab : complete [fa; fb].
Proof. exists fb. split; [right; left; reflexivity|]. split; [reflexivity|]. intros b Hb. cbn in Hb. destruct (Z_lt_dec b 8); [exists fa|exists fb]; (split; [cbn; auto|cbn; lia]). Qed.

(** Thread 1 handles the first fragment of ky, thread 0 looks for the entry, and while it has not yet
    locked it, thread 1 looks the entry up as well; then thread 0 completes the datagram. *)
Definition seg1 : list alabel := work 1 (first_ 2 ky 7 8) 4.
Definition stepA : alabel := AThread 1 (CFirst 2 ky 7 true) (pkt 0 8 true) false.
Definition seg2 : list alabel := work 1 (first_ 2 ky 7 8) 2 ++ work 0 (other 3 ky 1 8 false) 1 ++ work 1 (CGet 3 ky, []) 1.
Definition stepB : alabel := AThread 0 (CStore 3 ky (pkt 1 8 false)) [] false.
Definition getw (o : option (list obs * aworld)) : list obs * aworld := match o with Some w => w | None => ([], mkAW (asmCreate ga 0) []) end.
Definition getb (tr : list obs) (o : option (outcome (aworld * list obs))) : list obs * aworld :=
  match o with Some (Ok (w, ob)) => (tr ++ ob, w) | _ => ([], mkAW (asmCreate ga 0) []) end.
Definition wA : list obs * aworld := Eval vm_compute in getw (qrun ga [] (astart ga 4 2) seg1).
Definition wA' : list obs * aworld := Eval vm_compute in getb (fst wA) (awstep ga (snd wA) stepA).
Definition wB : list obs * aworld := Eval vm_compute in getw (qrun ga (fst wA') (snd wA') seg2).
Lemma step_to tr w l tr' w' : awstep ga w l <> None -> aw_pcs w' <> [] -> getb tr (awstep ga w l) = (tr', w') -> exists ob, awstep ga w l = Some (Ok (w', ob)) /\ tr' = tr ++ ob.
Proof. intros H0 H1 H. unfold getb in H. destruct (awstep ga w l) as [[[w1 ob]| | |]|]; try (injection H as _ <-; exfalso; apply H1; reflexivity). injection H as <- <-. eauto. Qed.
Lemma runA : oexec ga (astart ga 4 2) (fst wA') [(1, fa)] 0 (snd wA').
Proof.
  assert (E1 : oexec ga (astart ga 4 2) (fst wA) [] 0 (snd wA)) by (apply (qrun_exec ga seg1 _ [] _ _ (astart ga 4 2)); [apply ox_nil|vm_compute; reflexivity]).
  destruct (step_to (fst wA) (snd wA) stepA (fst wA') (snd wA')) as [ob [S Et]]; [vm_compute; discriminate|vm_compute; discriminate|vm_compute; reflexivity|]. rewrite Et.
  change [(1, fa)] with ([] ++ [(1, fa)]). eapply ox_more; [exact E1|exact S|vm_compute; reflexivity|apply (pkt_frag 0 8 true); lia|exact fits_a|].
  intros [[now [k [d [o [x X]]]]] _]. vm_compute in X. discriminate.
Qed.
Lemma runB : oexec ga (astart ga 4 2) (fst wB) [(1, fa)] 0 (snd wB).
Proof. apply (qrun_exec ga seg2 _ (fst wA') _ _ (snd wA')); [exact runA|vm_compute; reflexivity]. Qed.
Lemma threads_ex : conf_ok ga /\ exists tr w x y, oexec ga (astart ga 4 2) tr [(1, fa)] 0 w /\ znth (aw_pcs w) 0 = Some (PBody (CStore 3 ky (pkt 1 8 false)) 1, x) /\
  inspected w stepB = Some (1, pkt 1 8 false) /\ frag_packet (pkt 1 8 false) fb /\ fits (of_obj [(1, fa)] 1) (pkt 1 8 false) /\
  awstep ga w stepB = Some y /\ complete (of_obj [(1, fa)] 1 ++ [fb]) /\ Exists (fun p => fst p = PBody (CGet 3 ky) 1) (aw_pcs w).
Proof.
  split; [exact (proj1 ga_ok)|]. do 4 eexists. split; [exact runB|]. split; [vm_compute; reflexivity|]. split; [vm_compute; reflexivity|].
  split; [apply (pkt_frag 1 8 false); lia|]. split; [exact fits_b|]. split; [vm_compute; reflexivity|]. split; [exact done_ab|]. apply Exists_cons_tl. apply Exists_cons_hd. reflexivity.
Qed.
