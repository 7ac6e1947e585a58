(** The fragment table with a reassembler: every interleaving (C80). *)
From Verif Require Import Base Lists IpKey_Model Conntrack_Model Conntrack_Spec Conntrack_Proofs Conntrack2_Proofs Reasm_Model Reasm_Spec Reasm_Proofs
  Frag_Model Frag_Spec Frag_Proofs Frag2_Proofs Frag3_Proofs Asm_Model Asm_Spec.
From Coq Require Import Permutation.

(** ** Lists of trackers *)
Definition weight (l : list (Z * tracker)) : Z := sum (map (fun y => 1 + zlen (t_holes (snd y))) l).
Lemma tget_In l o t : tget l o = Some t -> In (o, t) l.
Proof.
  induction l as [|[o' t'] l IH]; cbn [tget fst snd]; [discriminate|]. destruct (o' =? o) eqn:E; intro H.
  - injection H as <-. apply Z.eqb_eq in E. subst. left. reflexivity.
  - right. auto.
Qed.
Lemma In_tget l o t : NoDup (map fst l) -> In (o, t) l -> tget l o = Some t.
Proof.
  induction l as [|[o' t'] l IH]; intros N H; [destruct H|]. cbn [map fst] in N. apply NoDup_cons_iff in N. destruct N as [N1 N2]. cbn [tget fst snd].
  destruct H as [H|H].
  - injection H as -> ->. rewrite Z.eqb_refl. reflexivity.
  - destruct (o' =? o) eqn:E; [|auto]. apply Z.eqb_eq in E. subst o'. exfalso. apply N1. change o with (fst (o, t)). apply in_map. assumption.
Qed.
Lemma tget_none l o : ~ In o (map fst l) -> tget l o = None.
Proof. destruct (tget l o) eqn:E; [|reflexivity]. intro H. exfalso. apply H. apply tget_In in E. change o with (fst (o, t)). apply in_map. assumption. Qed.
Lemma tset_fst l o t : map fst (tset l o t) = map fst l.
Proof. induction l as [|[o' t'] l IH]; [reflexivity|]. cbn [tset fst]. destruct (o' =? o) eqn:E; cbn [map fst]; [f_equal; lia|f_equal; exact IH]. Qed.
Lemma tget_tset l o t o' : (exists t0, tget l o = Some t0) -> tget (tset l o t) o' = if o =? o' then Some t else tget l o'.
Proof.
  intros [t0 H]. induction l as [|[o1 t1] l IH]; [discriminate|]. cbn [tget tset fst snd] in *.
  destruct (o1 =? o) eqn:E.
  - apply Z.eqb_eq in E. subst o1. cbn [tget fst snd]. destruct (o =? o'); reflexivity.
  - cbn [tget fst snd]. rewrite (IH H). destruct (o1 =? o') eqn:E1; [|reflexivity]. destruct (o =? o') eqn:E2; [lia|reflexivity].
Qed.
Lemma tdel_incl l o x : In x (tdel l o) -> In x l.
Proof. induction l as [|[o' t'] l IH]; [auto|]. cbn [tdel fst]. destruct (o' =? o); intros H; [right; assumption|]. destruct H as [H|H]; [left; assumption|right; auto]. Qed.
Lemma tdel_nodup l o : NoDup (map fst l) -> NoDup (map fst (tdel l o)).
Proof.
  induction l as [|[o' t'] l IH]; [auto|]. cbn [tdel map fst]. intro N. apply NoDup_cons_iff in N. destruct N as [N1 N2]. destruct (o' =? o); [assumption|].
  cbn [map fst]. constructor; [|auto]. intro H. apply N1. apply in_map_iff in H. destruct H as [x [<- Hx]]. apply in_map. eapply tdel_incl; eauto.
Qed.
Lemma tget_tdel l o o' : NoDup (map fst l) -> tget (tdel l o) o' = if o =? o' then None else tget l o'.
Proof.
  induction l as [|[o1 t1] l IH]; intro N; [destruct (o =? o'); reflexivity|]. cbn [map fst] in N. apply NoDup_cons_iff in N. destruct N as [N1 N2]. cbn [tdel tget fst snd].
  destruct (o1 =? o) eqn:E.
  - apply Z.eqb_eq in E. subst o1. destruct (o =? o') eqn:E2; [|reflexivity]. apply Z.eqb_eq in E2. subst o'. apply tget_none. assumption.
  - cbn [tget fst snd]. rewrite (IH N2). destruct (o1 =? o') eqn:E1; [|reflexivity]. destruct (o =? o') eqn:E2; [lia|reflexivity].
Qed.
Lemma weight_del l o t : tget l o = Some t -> weight l = (1 + zlen (t_holes t)) + weight (tdel l o).
Proof.
  unfold weight. induction l as [|[o' t'] l IH]; [discriminate|]. cbn [tget tdel fst snd]. destruct (o' =? o) eqn:E; intro H.
  - injection H as <-. cbn [map sum snd]. reflexivity.
  - cbn [map sum snd]. rewrite (IH H). lia.
Qed.
Lemma weight_set l o t t' : tget l o = Some t -> weight (tset l o t') = weight l - zlen (t_holes t) + zlen (t_holes t').
Proof.
  unfold weight. induction l as [|[o1 t1] l IH]; [discriminate|]. cbn [tget tset fst snd]. destruct (o1 =? o) eqn:E; intro H.
  - injection H as <-. cbn [map sum snd]. lia.
  - cbn [map sum snd]. rewrite (IH H). lia.
Qed.

(** ** Items are conserved by the packets *)
Lemma ra6_items t data p : forall fuel htype hdr r t' p', ra6 fuel t data htype hdr p = Ok (r, t', p') ->
  zlen (t_holes t') + zlen p' = zlen (t_holes t) + zlen p.
Proof.
  induction fuel as [|fuel IH]; intros htype hdr r t' p' H; [discriminate|]. cbn [ra6] in H.
  assert (K : forall q, Ok (q, t, p) = Ok (r, t', p') -> zlen (t_holes t') + zlen p' = zlen (t_holes t) + zlen p) by (intros q Hq; assert (t' = t /\ p' = p) as (-> & ->) by (split; congruence); reflexivity).
  destruct (is_ext htype && negb (htype =? 44)).
  - destruct (negb (in_bounds hdr 2 (zlen data))); [eauto|]. destruct (aget data hdr) as [n| | |]; try discriminate. cbn [obind] in H.
    destruct (aget data (hdr + 1)) as [l| | |]; try discriminate. cbn [obind] in H. destruct (l =? 0); eauto.
  - destruct (htype =? 44); [|eauto]. destruct (negb (in_bounds hdr 8 (zlen data))); [eauto|].
    destruct (rdn data (hdr + 2) 2) as [w| | |]; try discriminate. cbn [obind] in H. cbv zeta in H. apply handle_items in H. exact H.
Qed.
Lemma ra_items t data p r t' p' : raHandleFragment t data p = Ok (r, t', p') -> zlen (t_holes t') + zlen p' = zlen (t_holes t) + zlen p.
Proof.
  assert (K : forall q, Ok (q, t, p) = Ok (r, t', p') -> zlen (t_holes t') + zlen p' = zlen (t_holes t) + zlen p) by (intros q Hq; assert (t' = t /\ p' = p) as (-> & ->) by (split; congruence); reflexivity).
  unfold raHandleFragment. destruct (aget data 0) as [b| | |]; try discriminate. cbn [obind]. destruct (Z.land b 240 =? 64).
  - destruct (negb (in_bounds 0 20 (zlen data))); [eauto|]. destruct (rdn data 2 2) as [tl| | |]; try discriminate. cbn [obind].
    destruct (negb (zlen data =? be16 tl)); [eauto|]. destruct (rdn data 6 2) as [fo| | |]; try discriminate. cbn [obind]. cbv zeta. apply handle_items.
  - destruct (Z.land b 240 =? 96); [|eauto]. destruct (aget data 6) as [n| | |]; try discriminate. cbn [obind]. apply ra6_items.
Qed.

(** ** What the trackers are: owned by objects, and the items add up *)
Record TOk (size : Z) (x : asys) : Prop := {
  to_sum : zlen (a_pool x) + weight (a_trk x) = size;
  to_nodup : NoDup (map fst (a_trk x)) }.
Definition owned (x : asys) : Prop := forall o t, tget (a_trk x) o = Some t -> oget (s_objs (a_sys x)) o <> None.

Lemma end_sys x o : a_sys (endTracker x o) = a_sys x /\ a_frags (endTracker x o) = a_frags x.
Proof. unfold endTracker. destruct (tget (a_trk x) o); auto. Qed.
Lemma end_get x o o' : NoDup (map fst (a_trk x)) -> tget (a_trk (endTracker x o)) o' = if o =? o' then None else tget (a_trk x) o'.
Proof.
  intro N. unfold endTracker. destruct (tget (a_trk x) o) as [t|] eqn:E; cbn [a_trk]; [apply tget_tdel; assumption|].
  destruct (o =? o') eqn:E2; [|reflexivity]. apply Z.eqb_eq in E2. subst. assumption.
Qed.
Lemma end_ok size x o : TOk size x -> TOk size (endTracker x o).
Proof.
  intros [S N]. unfold endTracker. destruct (tget (a_trk x) o) as [t|] eqn:E; [|constructor; assumption]. constructor; cbn [a_pool a_trk].
  - rewrite (weight_del _ _ _ E) in S. unfold raDestroy, zlen in *. rewrite app_length, rev_length. cbn [length]. lia.
  - apply tdel_nodup. assumption.
Qed.
Lemma endAll_sys l : forall x, a_sys (endAll x l) = a_sys x /\ a_frags (endAll x l) = a_frags x.
Proof.
  induction l as [|o l IH]; intro x; [split; reflexivity|]. cbn [endAll]. destruct (oget (s_objs (a_sys x)) o); [apply IH|].
  destruct (IH (endTracker x o)) as [-> ->]. apply end_sys.
Qed.
Lemma endAll_ok size l : forall x, TOk size x -> TOk size (endAll x l).
Proof. induction l as [|o l IH]; intros x T; [assumption|]. cbn [endAll]. destruct (oget (s_objs (a_sys x)) o); apply IH; [assumption|apply end_ok; assumption]. Qed.
Lemma endAll_get l : forall x o, NoDup (map fst (a_trk x)) ->
  tget (a_trk (endAll x l)) o = match oget (s_objs (a_sys x)) o with None => if in_dec Z.eq_dec o l then None else tget (a_trk x) o | Some _ => tget (a_trk x) o end.
Proof.
  induction l as [|o1 l IH]; intros x o N; cbn [endAll].
  - destruct (oget (s_objs (a_sys x)) o); [reflexivity|]. destruct (in_dec Z.eq_dec o []) as [[]|]; reflexivity.
  - destruct (oget (s_objs (a_sys x)) o1) as [b1|] eqn:E1.
    + rewrite IH by assumption. destruct (oget (s_objs (a_sys x)) o) eqn:E; [reflexivity|].
      destruct (in_dec Z.eq_dec o l) as [H|H]; destruct (in_dec Z.eq_dec o (o1 :: l)) as [H'|H']; try reflexivity.
      * exfalso. apply H'. right. assumption.
      * destruct H' as [->|H']; [congruence|contradiction].
    + assert (N' : NoDup (map fst (a_trk (endTracker x o1)))) by (unfold endTracker; destruct (tget (a_trk x) o1); [apply tdel_nodup|]; assumption).
      rewrite IH by assumption. destruct (end_sys x o1) as [-> _]. rewrite end_get by assumption.
      destruct (oget (s_objs (a_sys x)) o) eqn:E.
      * destruct (o1 =? o) eqn:E2; [|reflexivity]. apply Z.eqb_eq in E2. subst. congruence.
      * destruct (in_dec Z.eq_dec o l) as [H|H]; destruct (in_dec Z.eq_dec o (o1 :: l)) as [H'|H']; try reflexivity.
        -- exfalso. apply H'. right. assumption.
        -- destruct (o1 =? o) eqn:E2; [reflexivity|]. destruct H' as [->|H']; [lia|contradiction].
        -- destruct (o1 =? o) eqn:E2; [|reflexivity]. exfalso. apply H'. left. lia.
Qed.
Lemma handle_ok size x o t d x' r : TOk size x -> tget (a_trk x) o = Some t -> handle x o t d = Ok (x', r) ->
  TOk size x' /\ a_sys x' = a_sys x /\ a_frags x' = a_frags x /\ map fst (a_trk x') = map fst (a_trk x) /\
  exists t', raHandleFragment t d (a_pool x) = Ok (r, t', a_pool x') /\ a_trk x' = tset (a_trk x) o t'.
Proof.
  intros [S N] E H. unfold handle in H. destruct (raHandleFragment t d (a_pool x)) as [[[r1 t1] p1]| | |] eqn:R; try discriminate. cbn [obind] in H.
  assert (x' = mkA (a_sys x) p1 (tset (a_trk x) o t1) (a_frags x) /\ r1 = r) as (-> & ->) by (split; congruence).
  pose proof (ra_items _ _ _ _ _ _ R). cbn [a_sys a_frags a_trk a_pool].
  split; [constructor; cbn [a_trk a_pool]; [rewrite (weight_set _ _ _ _ E); lia|rewrite tset_fst; assumption]|].
  split; [reflexivity|]. split; [reflexivity|]. split; [apply tset_fst|]. exists t1. auto.
Qed.
Lemma assemble_ok size x p d x1 done : TOk size x -> assemble x p d = Ok (x1, done) ->
  TOk size x1 /\ a_sys x1 = a_sys x /\ a_frags x1 = a_frags x /\ (forall o, tget (a_trk x) o = None -> tget (a_trk x1) o = None).
Proof.
  intros T H. assert (Self : forall b, Ok (x, b) = Ok (x1, done) -> TOk size x1 /\ a_sys x1 = a_sys x /\ a_frags x1 = a_frags x /\ (forall o, tget (a_trk x) o = None -> tget (a_trk x1) o = None)).
  { intros b E. assert (x1 = x) as -> by congruence. auto. }
  destruct p; cbn [assemble] in H; try (apply (Self _ H)).
  destruct (tget (a_trk x) o) as [t|] eqn:E; [|apply (Self _ H)].
  assert (Hd : forall y r dd, handle x o t dd = Ok (y, r) -> TOk size y /\ a_sys y = a_sys x /\ a_frags y = a_frags x /\ (forall o, tget (a_trk x) o = None -> tget (a_trk y) o = None)).
  { intros y r dd Hh. destruct (handle_ok _ _ _ _ _ _ _ T E Hh) as [T1 [S1 [F1 [_ [t' [_ E1]]]]]]. split; [assumption|]. split; [assumption|]. split; [assumption|].
    intros o' H0. rewrite E1, tget_tset by eauto. destruct (o =? o') eqn:Eo; [|assumption]. apply Z.eqb_eq in Eo. subst. congruence. }
  destruct c as [now k v want|now k|now k dd].
  - destruct (handle x o t d) as [[y r]| | |] eqn:Hh; try discriminate. cbn [obind fst] in H. assert (x1 = y) as -> by congruence. eapply Hd; eauto.
  - apply (Self _ H).
  - destruct (oget (s_objs (a_sys x)) o) as [b|]; [|discriminate]. destruct (o_state b).
    + destruct (handle x o t dd) as [[y r]| | |] eqn:Hh; try discriminate. cbn [obind fst snd] in H. assert (x1 = y) as -> by congruence. eapply Hd; eauto.
    + assert (x1 = endTracker x o) as -> by congruence. split; [apply end_ok; assumption|]. destruct (end_sys x o) as [-> ->]. split; [reflexivity|]. split; [reflexivity|].
      intros o' H0. rewrite end_get by apply T. destruct (o =? o'); auto.
    + assert (x1 = endTracker x o) as -> by congruence. split; [apply end_ok; assumption|]. destruct (end_sys x o) as [-> ->]. split; [reflexivity|]. split; [reflexivity|].
      intros o' H0. rewrite end_get by apply T. destruct (o =? o'); auto.
Qed.
Lemma new_ok size x o : TOk size x -> tget (a_trk x) o = None -> TOk size (newTracker x o).
Proof.
  intros [S N] H. unfold newTracker. destruct (raNew (a_pool x)) as [[t|] p] eqn:E; apply new_items in E.
  - constructor; cbn [a_pool a_trk].
    + unfold weight in *. cbn [map sum snd]. lia.
    + cbn [map fst]. constructor; [|assumption]. intro Hi. apply in_map_iff in Hi. destruct Hi as [[o' t'] [H1 H2]]. cbn [fst] in H1. subst o'.
      apply (In_tget _ _ _ N) in H2. congruence.
  - constructor; cbn [a_pool a_trk]; [lia|assumption].
Qed.

(** ** Objects released by a step are among those it unlocks *)
Definition gone (s s' : sys) (l : list Z) : Prop := forall o, oget (s_objs s) o <> None -> oget (s_objs s') o = None -> In o l.
Lemma gone_same s s' l : s_objs s' = s_objs s -> gone s s' l.
Proof. intros E o H1 H2. rewrite E in H2. contradiction. Qed.
Lemma gone_set s s' l o b : (exists b0, oget (s_objs s) o = Some b0) -> s_objs s' = oset (s_objs s) o b -> gone s s' l.
Proof. intros Hx E o' H1 H2. rewrite E, oget_oset in H2 by assumption. destruct (o =? o'); [discriminate|contradiction]. Qed.
Lemma unlock_gone s o s' ob : NoDup (map fst (s_objs s)) -> fragDataUnlock s o = Ok (s', ob) -> gone s s' [o] /\ NoDup (map fst (s_objs s')).
Proof.
  intros N H. unfold fragDataUnlock in H. destruct (oget (s_objs s) o) as [b|] eqn:E; [|discriminate]. destruct (o_ref b - 1 =? 0).
  - injection H as <- _. cbn [add_fd add_fr add_disc set_objs s_objs]. split; [|apply odel_nodup; assumption]. intros o' H1 H2. cbn [add_fd add_fr add_disc set_objs s_objs] in H2. rewrite oget_odel in H2 by assumption.
    destruct (o =? o') eqn:Eo; [left; lia|contradiction].
  - injection H as <- _. cbn [set_objs s_objs]. split; [|rewrite oset_fst; assumption]. eapply gone_set; [eauto|reflexivity].
Qed.
Lemma lock_gone s o s' l : fragDataLock s o = Ok s' -> gone s s' l.
Proof. unfold fragDataLock. destruct (oget (s_objs s) o) as [b|] eqn:E; [|discriminate]. intro H. injection H as <-. eapply gone_set; [eauto|reflexivity]. Qed.
Lemma gone_trans s s1 s2 l1 l2 : gone s s1 l1 -> gone s1 s2 l2 -> gone s s2 (l1 ++ l2).
Proof.
  intros H1 H2 o Ha Hb. apply in_or_app. destruct (oget (s_objs s1) o) as [b|] eqn:E.
  - right. apply H2; [congruence|assumption].
  - left. auto.
Qed.
Lemma callbacks_gone ev : forall s s' ob, NoDup (map fst (s_objs s)) -> callbacks s ev = Ok (s', ob) -> gone s s' (freed_data ev) /\ NoDup (map fst (s_objs s')).
Proof.
  induction ev as [|e ev IH]; intros s s' ob N H; cbn [callbacks] in H.
  - injection H as <- _. split; [apply gone_same; reflexivity|assumption].
  - destruct e as [d|m|[m|]]; cbn [freed_data].
    + destruct (fragDataUnlock s d) as [[s1 ob1]| | |] eqn:E; try discriminate. cbn [obind] in H. destruct (callbacks s1 ev) as [[s2 ob2]| | |] eqn:E2; try discriminate. cbn [obind] in H.
      assert (s2 = s') as -> by congruence. destruct (unlock_gone _ _ _ _ N E) as [G1 N1]. destruct (IH _ _ _ N1 E2) as [G2 N2]. split; [|assumption]. exact (gone_trans _ _ _ [d] _ G1 G2).
    + cbn [obind] in H. destruct (callbacks (add_bk s 1) ev) as [[s2 ob2]| | |] eqn:E2; try discriminate. cbn [obind] in H. assert (s2 = s') as -> by congruence. exact (IH (add_bk s 1) _ _ N E2).
    + cbn [obind] in H. destruct (callbacks (add_bk s (-1)) ev) as [[s2 ob2]| | |] eqn:E2; try discriminate. cbn [obind] in H. assert (s2 = s') as -> by congruence. exact (IH (add_bk s (-1)) _ _ N E2).
    + cbn [obind] in H. destruct (callbacks s ev) as [[s2 ob2]| | |] eqn:E2; try discriminate. cbn [obind] in H. assert (s2 = s') as -> by congruence. exact (IH s _ _ N E2).
Qed.
Lemma table_gone s o s' v ob : NoDup (map fst (s_objs s)) -> table_op s o = Ok (s', v, ob) -> gone s s' (freedOf (cstep (s_ct s) o)) /\ NoDup (map fst (s_objs s')).
Proof.
  intros N H. unfold table_op in H. destruct (cstep (s_ct s) o) as [[[t v1] ev]| | |] eqn:E; try discriminate. cbn [obind] in H.
  destruct (callbacks (set_ct s t) ev) as [[s1 ob1]| | |] eqn:E2; try discriminate. cbn [obind] in H. assert (s1 = s') as -> by congruence.
  exact (callbacks_gone _ (set_ct s t) _ _ N E2).
Qed.
Lemma lookup_gone s now k s' o ob : NoDup (map fst (s_objs s)) -> lookup_op s now k = Ok (s', o, ob) -> gone s s' (freedOf (cstep (s_ct s) (OLookup now k))).
Proof.
  intros N H. unfold lookup_op in H. destruct (table_op s (OLookup now k)) as [[[s1 o1] ob1]| | |] eqn:E; try discriminate. cbn [obind] in H.
  destruct (table_gone _ _ _ _ _ N E) as [G1 N1]. destruct (o1 =? 0).
  - assert (s1 = s') as -> by congruence. assumption.
  - destruct (fragDataLock s1 o1) as [s2| | |] eqn:E2; try discriminate. cbn [obind] in H. assert (s2 = s') as -> by congruence.
    pose proof (gone_trans _ _ _ _ _ G1 (lock_gone _ _ _ [] E2)) as G. rewrite app_nil_r in G. assumption.
Qed.
Lemma insert_gone g s now k o st s' v ob : NoDup (map fst (s_objs s)) -> insert_op g s now k o st = Ok (s', v, ob) -> gone s s' (insertEvents g s now k o st).
Proof.
  intros N H. unfold insert_op in H. unfold insertEvents. destruct (ctInsertWithTTL (s_ct s) now k (g_ttl g) o (Some (s_next s))) as [[[t v1] ev]| | |] eqn:E; try discriminate. cbn [obind] in H.
  cbv zeta in H |- *. eapply (table_gone (set_next s (s_next s + 1))) in H; [|assumption]. exact (proj1 H).
Qed.

Lemma tstep_gone g s p a s' p' ob : NoDup (map fst (s_objs s)) -> tstep g s p a = Ok (s', p', ob) -> gone s s' (unlocked g s p a).
Proof.
  intros N H.
  assert (U : forall o (q : list obs -> pc) (f : list obs -> list obs) q', (do x <- fragDataUnlock s o; let '(s1, ob1) := x in Ok (s1, q ob1, f ob1)) = Ok (s', q', ob) -> gone s s' [o]).
  { intros o q f q' E. destruct (fragDataUnlock s o) as [[s1 ob1]| | |] eqn:Eu; try discriminate. cbn [obind] in E. assert (s1 = s') as -> by congruence. exact (proj1 (unlock_gone _ _ _ _ N Eu)). }
  destruct p; cbn [tstep unlocked] in *.
  - (* Idle *) cbv zeta in H. destruct (lookup_op s (c_now (a_call a)) (c_k (a_call a))) as [[[s1 o] ob1]| | |] eqn:E; try discriminate. cbn [obind] in H.
    assert (s1 = s') as -> by (destruct (o =? 0); [destruct (a_call a)|]; congruence). eapply lookup_gone; eauto.
  - (* PAlloc *) destruct (s_fdfree s <=? 0); [apply gone_same; congruence|]. injection H as <- _ _. intros o H1 H2. exfalso. apply H1.
    cbn [add_fd set_next set_objs s_objs oget fst snd] in H2. destruct (s_next s =? o); [discriminate|assumption].
  - (* PIns *) destruct (insert_op g s (c_now c) (c_k c) o (a_starved a)) as [[[s1 rc1] ob1]| | |] eqn:E; try discriminate. cbn [obind] in H. assert (s1 = s') as -> by congruence. eapply insert_gone; eauto.
  - (* PInc *) destruct (fragDataLock s o) as [s1| | |] eqn:E; try discriminate. cbn [obind] in H. assert (s1 = s') as -> by congruence. eapply lock_gone; eauto.
  - (* PLost *) exact (U o (fun _ => PAgain c) (fun x => x) _ H).
  - (* PAgain *) destruct (lookup_op s (c_now c) (c_k c)) as [[[s1 o] ob1]| | |] eqn:E; try discriminate. cbn [obind] in H.
    assert (s1 = s') as -> by (destruct (o =? 0); congruence). eapply lookup_gone; eauto.
  - (* PFull *) exact (U o (fun _ => Idle) (fun x => x ++ ret c (-1) None) _ H).
  - (* PBody *) destruct (oget (s_objs s) o) as [b|] eqn:E; [|discriminate]. destruct c as [now k v want|now k|now k d].
    + destruct (o_state b); try (apply gone_same; congruence). injection H as <- _ _. eapply gone_set; [eauto|reflexivity].
    + destruct (o_state b); apply gone_same; congruence.
    + destruct (o_state b); [|apply gone_same; destruct (a_done a); congruence|apply gone_same; destruct (a_done a); congruence].
      destruct (a_done a); [|apply gone_same; congruence]. destruct (table_op s (ORemove now k)) as [[[s1 v1] ob1]| | |] eqn:Et; try discriminate. cbn [obind] in H.
      assert (s' = inc_reas s1) as -> by congruence. exact (proj1 (table_gone _ _ _ _ _ N Et)).
  - (* PTaken *) exact (U o (fun _ => PGive c l) (fun x => x) _ H).
  - (* PGive *) cbv zeta in H. apply gone_same. destruct c as [now k v [|]|now k|now k d]; injection H as <- _ _; reflexivity.
  - (* PCheck *) destruct (oget (s_objs s) o) as [b|] eqn:E; [|discriminate]. apply gone_same.
    destruct (o_state b), c; try congruence; destruct (g_mtu g <? zlen data); congruence.
  - (* PVal *) destruct (oget (s_objs s) o) as [b|] eqn:E; [|discriminate]. destruct (o_val b); [|discriminate]. apply gone_same; congruence.
  - (* PItem *) destruct c; try discriminate. apply gone_same. destruct (s_frfree s <=? 0); injection H as <- _ _; reflexivity.
  - (* PPoison *) destruct (oget (s_objs s) o) as [b|] eqn:E; [|discriminate]. injection H as <- _ _. eapply gone_set; [eauto|reflexivity].
  - (* PPoisoned *) exact (U o (fun _ => PDrop c l) (fun x => x) _ H).
  - (* PDrop *) cbv zeta in H. apply gone_same. injection H as <- _ _. reflexivity.
  - (* PPut *) destruct (oget (s_objs s) o) as [b|] eqn:E; [|discriminate]. destruct (o_state b).
    + destruct (o_val b); [|discriminate]. apply gone_same; congruence.
    + injection H as <- _ _. eapply gone_set; [eauto|reflexivity].
    + apply gone_same; congruence.
  - (* PBack *) apply gone_same. injection H as <- _ _. reflexivity.
  - (* PUnl *) exact (U o (fun _ => Idle) (fun x => x ++ ret c rc v) _ H).
Qed.

(** ** Steps *)
Lemma atstep_inv g x p d c st x' p' ob : atstep g x p d c st = Ok (x', p', ob) ->
  exists x1 done s', assemble x p d = Ok (x1, done) /\ tstep g (a_sys x1) p (mkChoice c done st) = Ok (s', p', ob) /\
    x' = (let x2 := endAll (mkA s' (a_pool x1) (a_trk x1) (u32 (a_frags x1 + match p with PUnl _ _ 1 _ => 1 | _ => 0 end))) (unlocked g (a_sys x1) p (mkChoice c done st)) in
          match p, p' with PAlloc _, PIns _ o => newTracker x2 o | _, _ => x2 end).
Proof.
  unfold atstep. destruct (assemble x p d) as [[x1 done]| | |]; try discriminate. cbn [obind].
  destruct (tstep g (a_sys x1) p (mkChoice c done st)) as [[[s' p1] ob1]| | |] eqn:E; try discriminate. cbn [obind]. intro H.
  assert (p1 = p' /\ ob1 = ob) as (-> & ->) by (split; congruence). exists x1, done, s'. split; [reflexivity|]. split; [assumption|]. symmetry. congruence.
Qed.
Lemma new_sys x o : a_sys (newTracker x o) = a_sys x /\ a_frags (newTracker x o) = a_frags x.
Proof. unfold newTracker. destruct (raNew (a_pool x)) as [[t|] p]; auto. Qed.
Lemma new_get x o o' : tget (a_trk (newTracker x o)) o' <> None -> tget (a_trk x) o' <> None \/ o' = o.
Proof.
  unfold newTracker. destruct (raNew (a_pool x)) as [[t|] p]; cbn [a_trk tget fst snd]; [|auto].
  destruct (o =? o') eqn:E; [intros _; right; lia|auto].
Qed.

Lemma atstep_ok size g tr x p ps d c st x' p' ob : conf_ok g -> Inv g tr (a_sys x) (p :: ps) [] -> TOk size x -> owned x ->
  atstep g x p d c st = Ok (x', p', ob) ->
  (exists done, tstep g (a_sys x) p (mkChoice c done st) = Ok (a_sys x', p', ob)) /\ TOk size x' /\ owned x' /\
  a_frags x' = u32 (a_frags x + match p with PUnl _ _ 1 _ => 1 | _ => 0 end).
Proof.
  intros G I T O H. destruct (atstep_inv _ _ _ _ _ _ _ _ _ H) as [x1 [done [s' [Ea [Et Ex]]]]].
  destruct (assemble_ok _ _ _ _ _ _ T Ea) as [T1 [S1 [F1 N1]]]. rewrite S1 in Et.
  set (n := match p with PUnl _ _ 1 _ => 1 | _ => 0 end) in *.
  set (y := mkA s' (a_pool x1) (a_trk x1) (u32 (a_frags x1 + n))) in *.
  assert (Ty : TOk size y) by (destruct T1; constructor; assumption).
  set (l := unlocked g (a_sys x1) p (mkChoice c done st)) in *. set (x2 := endAll y l) in *.
  assert (T2 : TOk size x2) by (apply endAll_ok; assumption).
  destruct (endAll_sys l y) as [S2 F2]. fold x2 in S2, F2. change (a_sys y) with s' in S2. change (a_frags y) with (u32 (a_frags x1 + n)) in F2.
  assert (O2 : owned x2).
  { intros o t Hg Hn. rewrite S2 in Hn. unfold x2 in Hg. rewrite (endAll_get l y o (to_nodup _ _ Ty)) in Hg. change (a_sys y) with s' in Hg. rewrite Hn in Hg.
    destruct (in_dec Z.eq_dec o l) as [Hi|Hi]; [discriminate|]. apply Hi. unfold l. rewrite S1.
    eapply tstep_gone; [exact (v_nodup _ _ _ _ _ I)|exact Et| |exact Hn].
    destruct (tget (a_trk x) o) as [t0|] eqn:E0; [exact (O _ _ E0)|]. rewrite (N1 _ E0 : tget (a_trk y) o = None) in Hg. discriminate. }
  assert (Old : forall o, tget (a_trk x2) o <> None -> oget (s_objs (a_sys x)) o <> None).
  { intros o Hg. destruct (tget (a_trk x) o) as [t0|] eqn:E0; [exact (O _ _ E0)|]. exfalso. apply Hg. unfold x2. rewrite (endAll_get l y o (to_nodup _ _ Ty)).
    rewrite (N1 _ E0 : tget (a_trk y) o = None). destruct (oget (s_objs (a_sys y)) o); [reflexivity|]. destruct (in_dec Z.eq_dec o l); reflexivity. }
  assert (Plain : x' = x2 -> (exists done, tstep g (a_sys x) p (mkChoice c done st) = Ok (a_sys x', p', ob)) /\ TOk size x' /\ owned x' /\ a_frags x' = u32 (a_frags x + n)).
  { intros ->. split; [exists done; rewrite S2; exact Et|]. split; [assumption|]. split; [assumption|]. rewrite F2, F1. reflexivity. }
  cbv zeta in Ex. destruct p as [ |c0| | | | | | | | | | | | | | | | | ]; try (apply Plain; exact Ex). destruct p' as [ | |c1 o1| | | | | | | | | | | | | | | | ]; try (apply Plain; exact Ex).
  (* a new object *)
  assert (En : s_objs s' = (o1, mkObj 1 Storing None [] (c_k c0)) :: s_objs (a_sys x) /\ o1 = s_next (a_sys x)).
  { cbn [tstep] in Et. destruct (s_fdfree (a_sys x) <=? 0); [congruence|]. injection Et as <- <- <- _. split; reflexivity. }
  destruct En as [En Eo].
  assert (Nt : tget (a_trk x2) o1 = None).
  { destruct (tget (a_trk x2) o1) as [t|] eqn:E; [|reflexivity]. exfalso. assert (Hne : tget (a_trk x2) o1 <> None) by congruence. apply Old in Hne.
    destruct (oget (s_objs (a_sys x)) o1) as [b|] eqn:Eb; [|congruence]. pose proof (v_ids _ _ _ _ _ I _ _ Eb). lia. }
  destruct (new_sys x2 o1) as [S3 F3].
  rewrite Ex. split; [exists done; rewrite S3, S2; exact Et|]. split; [apply new_ok; assumption|]. split; [|rewrite F3, F2, F1; reflexivity].
  intros o t Hg Hn. rewrite S3 in Hn. assert (Hne : tget (a_trk (newTracker x2 o1)) o <> None) by congruence. destruct (new_get _ _ _ Hne) as [Hg2| ->].
  - destruct (tget (a_trk x2) o) as [t2|] eqn:E2; [|congruence]. exact (O2 _ _ E2 Hn).
  - rewrite S2, En in Hn. cbn [oget fst snd] in Hn. rewrite Z.eqb_refl in Hn. discriminate.
Qed.

(** ** The counter of stored fragments *)
Definition unc (p : pc) : Z := match p with PUnl _ _ 1 _ => 1 | _ => 0 end.
Definition back_ok (p : pc) : Prop := match p with PBack _ _ _ r _ => r <> 1 | _ => True end.
Definition still (ob : list obs) : Prop := stored_tr ob = [].
Lemma still_app a b : still a -> still b -> still (a ++ b).
Proof. unfold still. intros Ha Hb. rewrite stored_tr_app, Ha, Hb. reflexivity. Qed.
Lemma unlock_still s o s' ob : fragDataUnlock s o = Ok (s', ob) -> still ob.
Proof. unfold fragDataUnlock. destruct (oget (s_objs s) o) as [b|]; [|discriminate]. destruct (o_ref b - 1 =? 0); intro H; injection H as _ <-; reflexivity. Qed.
Lemma callbacks_still ev : forall s s' ob, callbacks s ev = Ok (s', ob) -> still ob.
Proof.
  induction ev as [|e ev IH]; intros s s' ob H; cbn [callbacks] in H; [injection H as _ <-; reflexivity|].
  destruct e as [d|m|[m|]].
  - destruct (fragDataUnlock s d) as [[s1 ob1]| | |] eqn:E; try discriminate. cbn [obind] in H. destruct (callbacks s1 ev) as [[s2 ob2]| | |] eqn:E2; try discriminate. cbn [obind] in H.
    assert (ob = ob1 ++ ob2) as -> by congruence. apply still_app; [eapply unlock_still; eauto|eauto].
  - cbn [obind] in H. destruct (callbacks (add_bk s 1) ev) as [[s2 ob2]| | |] eqn:E2; try discriminate. cbn [obind app] in H. assert (ob = ob2) as -> by congruence. eauto.
  - cbn [obind] in H. destruct (callbacks (add_bk s (-1)) ev) as [[s2 ob2]| | |] eqn:E2; try discriminate. cbn [obind app] in H. assert (ob = ob2) as -> by congruence. eauto.
  - cbn [obind] in H. destruct (callbacks s ev) as [[s2 ob2]| | |] eqn:E2; try discriminate. cbn [obind app] in H. assert (ob = ob2) as -> by congruence. eauto.
Qed.
Lemma table_still s o s' v ob : table_op s o = Ok (s', v, ob) -> still ob.
Proof.
  unfold table_op. destruct (cstep (s_ct s) o) as [[[t v1] ev]| | |]; try discriminate. cbn [obind].
  destruct (callbacks (set_ct s t) ev) as [[s1 ob1]| | |] eqn:E; try discriminate. cbn [obind]. intro H. assert (ob = ob1) as -> by congruence. eapply callbacks_still; eauto.
Qed.
Lemma lookup_still s now k s' o ob : lookup_op s now k = Ok (s', o, ob) -> still ob.
Proof.
  unfold lookup_op. destruct (table_op s (OLookup now k)) as [[[s1 o1] ob1]| | |] eqn:E; try discriminate. cbn [obind]. apply table_still in E.
  destruct (o1 =? 0); [intro H; assert (ob = ob1) as -> by congruence; assumption|]. destruct (fragDataLock s1 o1); try discriminate. cbn [obind]. intro H. assert (ob = ob1) as -> by congruence. assumption.
Qed.
Lemma insert_still g s now k o st s' v ob : insert_op g s now k o st = Ok (s', v, ob) -> still ob.
Proof. unfold insert_op. destruct (ctInsertWithTTL _ _ _ _ _ _) as [[[t v1] ev]| | |]; try discriminate. cbn [obind]. cbv zeta. apply table_still. Qed.

Lemma tstep_stored g s p a s' p' ob : back_ok p -> tstep g s p a = Ok (s', p', ob) -> zlen (stored_tr ob) = unc p' /\ back_ok p'.
Proof.
  intros Bk H.
  assert (Q : forall q, ob = q -> still q -> unc p' = 0 -> back_ok p' -> zlen (stored_tr ob) = unc p' /\ back_ok p').
  { intros q -> Hs -> Hb. unfold still in Hs. rewrite Hs. split; [reflexivity|assumption]. }
  assert (St : forall c r v, still (ret c r v)) by (intros; reflexivity).
  assert (U : forall o q (f : list obs -> list obs), (do x <- fragDataUnlock s o; let '(s1, ob1) := x in Ok (s1, q, f ob1)) = Ok (s', p', ob) ->
     (forall z, still z -> still (f z)) -> unc q = 0 -> back_ok q -> zlen (stored_tr ob) = unc p' /\ back_ok p').
  { intros o q f E Hf Hq Hb. destruct (fragDataUnlock s o) as [[s1 ob1]| | |] eqn:Eu; try discriminate. cbn [obind] in E.
    assert (p' = q /\ ob = f ob1) as (-> & ->) by (split; congruence). eapply Q; [reflexivity| |assumption|assumption]. apply Hf. eapply unlock_still; eauto. }
  assert (Nil : forall (q : pc) z, Ok (z, q, @nil obs) = Ok (s', p', ob) -> unc q = 0 -> back_ok q -> zlen (stored_tr ob) = unc p' /\ back_ok p').
  { intros q z E Hq Hb. assert (p' = q /\ ob = []) as (-> & ->) by (split; congruence). eapply Q; [reflexivity|reflexivity|assumption|assumption]. }
  destruct p; cbn [tstep] in H.
  - cbv zeta in H. destruct (lookup_op s (c_now (a_call a)) (c_k (a_call a))) as [[[s1 o] ob1]| | |] eqn:E; try discriminate. cbn [obind] in H. apply lookup_still in E.
    destruct (o =? 0); [destruct (a_call a)|]; injection H as _ <- <-; (eapply Q; [reflexivity| |reflexivity|exact Logic.I]); try assumption. apply still_app; auto.
  - destruct (s_fdfree s <=? 0); [injection H as _ <- <-; (eapply Q; [reflexivity| |reflexivity|exact Logic.I]); auto|]. eapply Nil; [exact H|reflexivity|exact Logic.I].
  - destruct (insert_op g s (c_now c) (c_k c) o (a_starved a)) as [[[s1 rc1] ob1]| | |] eqn:E; try discriminate. cbn [obind] in H. apply insert_still in E.
    injection H as _ <- <-. eapply Q; [reflexivity|assumption| |]; destruct (rc1 =? 0), (rc1 =? 1); try reflexivity; exact Logic.I.
  - destruct (fragDataLock s o) as [s1| | |]; try discriminate. cbn [obind] in H. eapply Nil; [exact H|reflexivity|exact Logic.I].
  - exact (U o (PAgain c) (fun x => x) H (fun z h => h) eq_refl Logic.I).
  - destruct (lookup_op s (c_now c) (c_k c)) as [[[s1 o] ob1]| | |] eqn:E; try discriminate. cbn [obind] in H. apply lookup_still in E.
    destruct (o =? 0); injection H as _ <- <-; (eapply Q; [reflexivity| |reflexivity|exact Logic.I]); try assumption. apply still_app; auto.
  - exact (U o Idle (fun x => x ++ ret c (-1) None) H (fun z h => still_app _ _ h (St _ _ _)) eq_refl Logic.I).
  - destruct (oget (s_objs s) o) as [b|] eqn:E; [|discriminate]. destruct c as [now k v want|now k|now k d].
    + destruct (o_state b); try (eapply Nil; [exact H|reflexivity|exact Logic.I]). injection H as _ <- <-. eapply Q; [reflexivity|reflexivity|reflexivity|exact Logic.I].
    + destruct (o_state b); eapply Nil; try exact H; try reflexivity; exact Logic.I.
    + destruct (o_state b); try (eapply Nil; [destruct (a_done a); exact H|reflexivity|exact Logic.I]).
      destruct (a_done a); [|eapply Nil; [exact H|reflexivity|exact Logic.I]]. destruct (table_op s (ORemove now k)) as [[[s1 v1] ob1]| | |] eqn:Et; try discriminate. cbn [obind] in H.
      apply table_still in Et. injection H as _ <- <-. eapply Q; [reflexivity|assumption|reflexivity|exact Logic.I].
  - exact (U o (PGive c l) (fun x => x) H (fun z h => h) eq_refl Logic.I).
  - cbv zeta in H. destruct c as [now k v [|]|now k|now k d]; injection H as _ <- <-; (eapply Q; [reflexivity|reflexivity|reflexivity|exact Logic.I]).
  - destruct (oget (s_objs s) o) as [b|] eqn:E; [|discriminate].
    destruct (o_state b), c; try (eapply Nil; [exact H|reflexivity|exact Logic.I]); destruct (g_mtu g <? zlen data); (eapply Nil; [exact H|reflexivity|exact Logic.I]).
  - destruct (oget (s_objs s) o) as [b|] eqn:E; [|discriminate]. destruct (o_val b); [|discriminate]. eapply Nil; [exact H|reflexivity|exact Logic.I].
  - destruct c; try discriminate. destruct (s_frfree s <=? 0); (eapply Nil; [exact H|reflexivity|exact Logic.I]).
  - destruct (oget (s_objs s) o) as [b|] eqn:E; [|discriminate]. eapply Nil; [exact H|reflexivity|exact Logic.I].
  - exact (U o (PDrop c l) (fun x => x) H (fun z h => h) eq_refl Logic.I).
  - cbv zeta in H. injection H as _ <- <-. eapply Q; [reflexivity|reflexivity|reflexivity|exact Logic.I].
  - destruct (oget (s_objs s) o) as [b|] eqn:E; [|discriminate]. destruct (o_state b).
    + destruct (o_val b); [|discriminate]. eapply Nil; [exact H|reflexivity|cbn; lia].
    + injection H as _ <- <-. split; [reflexivity|exact Logic.I].
    + eapply Nil; [exact H|reflexivity|cbn; lia].
  - eapply Nil; [exact H| |exact Logic.I]. cbn [back_ok] in Bk. cbn [unc]. destruct rc as [|[q|q|]|q]; try reflexivity. contradiction.
  - exact (U o Idle (fun x => x ++ ret c rc v) H (fun z h => still_app _ _ h (St _ _ _)) eq_refl Logic.I).
Qed.

(** ** Executions *)
Lemma sum_app a b : sum (a ++ b) = sum a + sum b.
Proof. induction a as [|x a IH]; [reflexivity|]. cbn [app sum]. lia. Qed.
Lemma sum_zupd A (f : A -> Z) l i x y : znth l i = Some x -> sum (map f (zupd l i y)) = sum (map f l) - f x + f y.
Proof.
  intro H. destruct (znth_split _ _ _ _ H) as [a [r [-> Hu]]]. rewrite Hu, !map_app, !sum_app. cbn [map sum]. lia.
Qed.
Lemma map_zupd A B (f : A -> B) l i y : map f (zupd l i y) = zupd (map f l) i (f y).
Proof. unfold zupd. destruct (i <? 0); [reflexivity|]. generalize (Z.to_nat i). induction l as [|a l IH]; intros [|n]; cbn; try reflexivity. f_equal. apply IH. Qed.

Lemma map_repeat_ A B (f : A -> B) x n : map f (repeat x n) = repeat (f x) n.
Proof. induction n; cbn [repeat map]; congruence. Qed.
Definition AInv (g : conf) (size : Z) (tr : list obs) (w : aworld) : Prop :=
  TOk size (aw_sys w) /\ owned (aw_sys w) /\
  a_frags (aw_sys w) = u32 (zlen (stored_tr tr) - sum (map uncounted (aw_pcs w))) /\
  Forall back_ok (map fst (aw_pcs w)).

Lemma gc_gone s i now s' ob : NoDup (map fst (s_objs s)) -> gc_bucket s i now = Ok (s', ob) ->
  gone s s' (match aget (t_buckets (s_ct s)) i with Ok b => let '(_, ev, _, _) := bucketGC b now in freed_data ev | _ => [] end) /\ still ob.
Proof.
  intros N H. unfold gc_bucket in H. destruct (aget (t_buckets (s_ct s)) i) as [b| | |]; try discriminate. cbn [obind] in H.
  destruct (bucketGC b now) as [[[b' ev] n] k]. split; [|eapply callbacks_still; eauto]. exact (proj1 (callbacks_gone _ (set_ct s _) _ _ N H)).
Qed.

Lemma aexec_ok g size n w0 tr w : conf_ok g -> aexec g w0 tr w -> w0 = astart g size n ->
  exec g (start g n) tr (plain w) /\ AInv g (Z.of_nat size) tr w.
Proof.
  intros G E. induction E as [w|w tr w1 l ob w2 E IH H]; intros ->.
  - assert (P : plain (astart g size n) = start g n).
    { unfold plain, astart, start. cbn [aw_sys aw_pcs asmCreate a_sys]. f_equal. rewrite map_repeat_. reflexivity. }
    rewrite P. split; [constructor|]. split; [|split; [|split]].
    + constructor; cbn [astart aw_sys asmCreate a_pool a_trk]; [|constructor]. unfold createReassembler, zlen. rewrite repeat_length. cbn. lia.
    + intros o t Ht. discriminate.
    + cbn [astart aw_sys aw_pcs asmCreate a_frags stored_tr]. replace (sum (map uncounted (repeat (Idle, []) n))) with 0; [reflexivity|].
      clear. induction n; [reflexivity|]. cbn [repeat map sum]. rewrite <- IHn. reflexivity.
    + cbn [astart aw_pcs]. rewrite map_repeat_. apply Forall_forall. intros p Hp. apply repeat_spec in Hp. subst p. exact Logic.I.
  - destruct (IH eq_refl) as [E1 [T [O [F B]]]]. pose proof (exec_ok g n _ _ _ G E1 eq_refl) as [I _]. cbn [plain w_sys w_pcs] in I.
    destruct l as [i c d st|i now]; cbn [awstep] in H.
    + destruct (znth (aw_pcs w1) i) as [[p d0]|] eqn:Hp; [|discriminate]. cbv zeta in H.
      set (data := match p with Idle => d | _ => d0 end) in *.
      destruct (atstep g (aw_sys w1) p data c st) as [[[x p'] ob1]| | |] eqn:Ha; try discriminate. cbn [obind] in H.
      assert (w2 = mkAW x (zupd (aw_pcs w1) i (p', data)) /\ ob1 = ob) as (-> & ->) by (split; congruence).
      assert (Hp' : znth (map fst (aw_pcs w1)) i = Some p) by (rewrite znth_map, Hp; reflexivity).
      destruct (znth_perm _ _ _ _ Hp') as [ps [P1 P2]]. assert (I1 : Inv g tr (a_sys (aw_sys w1)) (p :: ps) []) by (eapply Inv_perm; eauto).
      destruct (atstep_ok _ _ _ _ _ _ _ _ _ _ _ _ G I1 T O Ha) as [[done Et] [T' [O' F']]].
      assert (Bp : back_ok p) by (rewrite Forall_forall in B; apply B; eapply znth_In; eauto).
      destruct (tstep_stored _ _ _ _ _ _ _ Bp Et) as [Sb Bp'].
      split; [|split; [|split; [|split]]]; cbn [aw_sys aw_pcs]; try assumption.
      * eapply ex_step; [exact E1|]. instantiate (1 := LThread i (mkChoice c done st)). cbn [wstep plain w_pcs w_sys]. rewrite Hp', Et. cbn [obind].
        unfold plain. cbn [aw_sys aw_pcs]. rewrite map_zupd. reflexivity.
      * rewrite F', F, (sum_zupd _ _ _ _ _ _ Hp), stored_tr_app, zlen_app. fold (unc p). rewrite Sb. change (uncounted (p, d0)) with (unc p). change (uncounted (p', data)) with (unc p').
        rewrite u32_add_u32. f_equal. lia.
      * rewrite map_zupd. cbn [fst]. rewrite Forall_forall in *. intros q Hq. apply (Permutation_in _ (P2 p')) in Hq. destruct Hq as [<-|Hq]; [assumption|].
        apply B. eapply Permutation_in; [symmetry; exact P1|]. right. assumption.
    + cbv zeta in H. destruct ((0 <=? i) && (i <? zlen (t_buckets (s_ct (a_sys (aw_sys w1)))))) eqn:Ei; [|discriminate].
      destruct (gc_bucket (a_sys (aw_sys w1)) i now) as [[s' ob1]| | |] eqn:Hg; try discriminate. cbn [obind] in H.
      set (fr := match aget (t_buckets (s_ct (a_sys (aw_sys w1)))) i with Ok b => let '(_, ev, _, _) := bucketGC b now in freed_data ev | _ => [] end) in *.
      set (y := mkA s' (a_pool (aw_sys w1)) (a_trk (aw_sys w1)) (a_frags (aw_sys w1))) in *.
      assert (w2 = mkAW (endAll y fr) (aw_pcs w1) /\ ob1 = ob) as (-> & ->) by (split; congruence).
      destruct (gc_gone _ _ _ _ _ (v_nodup _ _ _ _ _ I) Hg) as [Go St]. fold fr in Go. destruct (endAll_sys fr y) as [S2 F2]. change (a_sys y) with s' in S2. change (a_frags y) with (a_frags (aw_sys w1)) in F2.
      assert (Ty : TOk (Z.of_nat size) y) by (destruct T; constructor; assumption).
      split; [|split; [|split; [|split]]]; cbn [aw_sys aw_pcs]; try assumption.
      * eapply ex_step; [exact E1|]. instantiate (1 := LStats i now). cbn [wstep plain w_pcs w_sys]. rewrite Ei, Hg. cbn [obind]. unfold plain. cbn [aw_sys aw_pcs]. rewrite S2. reflexivity.
      * apply endAll_ok. assumption.
      * intros o t Ht Hn. rewrite S2 in Hn. rewrite (endAll_get fr y o (to_nodup _ _ Ty)) in Ht. change (a_sys y) with s' in Ht. rewrite Hn in Ht.
        destruct (in_dec Z.eq_dec o fr) as [Hi|Hi]; [discriminate|]. apply Hi. apply Go; [|assumption]. exact (O _ _ Ht).
      * rewrite F2, F, stored_tr_app. unfold still in St. rewrite St, app_nil_r. reflexivity.
Qed.

Lemma items_weight x : items x = weight (a_trk x).
Proof. reflexivity. Qed.

(** Every interleaving is one of the table without a reassembler, the items add up, a
    tracker belongs to an object in use, and the counter is right. *)
Lemma asm_ok g size n tr w : conf_ok g -> aexec g (astart g size n) tr w ->
  exec g (start g n) tr (plain w) /\
  zlen (a_pool (aw_sys w)) + items (aw_sys w) = Z.of_nat size /\
  (forall o, has_tracker w o -> allocated_obj (plain w) o) /\
  a_frags (aw_sys w) = u32 (zlen (stored_tr tr) - sum (map uncounted (aw_pcs w))).
Proof.
  intros G E. destruct (aexec_ok g size n _ _ _ G E eq_refl) as [E1 [T [O [F B]]]]. split; [assumption|]. split; [rewrite items_weight; apply T|]. split; [|assumption].
  intros o [t Ht]. apply (In_tget _ _ _ (to_nodup _ _ T)) in Ht. specialize (O _ _ Ht). unfold allocated_obj. cbn [plain w_sys].
  destruct (oget (s_objs (a_sys (aw_sys w))) o) as [b|] eqn:Eb; [|congruence]. exists b. apply oget_In. assumption.
Qed.

(** When all calls are over and the table is empty, all items are free. *)
Lemma asm_all_free g size n tr w : conf_ok g -> aexec g (astart g size n) tr w ->
  stored_data (s_ct (a_sys (aw_sys w))) = [] -> Forall (fun p => fst p = Idle) (aw_pcs w) ->
  a_trk (aw_sys w) = [] /\ zlen (a_pool (aw_sys w)) = Z.of_nat size /\ a_frags (aw_sys w) = u32 (zlen (stored_tr tr)).
Proof.
  intros G E Hs Hp. destruct (asm_ok g size n tr w G E) as [E1 [S [O F]]].
  assert (Et : a_trk (aw_sys w) = []).
  { destruct (a_trk (aw_sys w)) as [|[o t] l] eqn:El; [reflexivity|]. exfalso.
    assert (Ho : has_tracker w o) by (exists t; rewrite El; left; reflexivity). apply O in Ho. apply (alive_iff g n tr (plain w) o G E1) in Ho.
    destruct Ho as [Ho|[p [Hi Hh]]].
    - unfold in_table in Ho. cbn [plain w_sys] in Ho. rewrite Hs in Ho. destruct Ho.
    - cbn [plain w_pcs] in Hi. apply in_map_iff in Hi. destruct Hi as [q [<- Hq]]. rewrite Forall_forall in Hp. rewrite (Hp _ Hq) in Hh. discriminate. }
  split; [assumption|]. split.
  - rewrite <- S. unfold items. rewrite Et. cbn. lia.
  - rewrite F. f_equal. assert (Z0 : sum (map uncounted (aw_pcs w)) = 0); [|lia]. clear -Hp. induction Hp as [|p l H _ IH]; [reflexivity|]. cbn [map sum]. rewrite IH. unfold uncounted. rewrite H. reflexivity.
Qed.
