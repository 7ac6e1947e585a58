(** Calls of the fragment table one after the other: refinement of the sessions of Frag_Spec (C13). *)
From Verif Require Import Base Lists Conntrack_Model Conntrack_Spec Conntrack_Proofs Conntrack2_Proofs Frag_Model Frag_Spec Frag_Proofs Frag2_Proofs.
From Coq Require Import Permutation.

(** ** What call-backs leave alone *)
Definition same (b b' : obj) : Prop :=
  o_state b' = o_state b /\ o_val b' = o_val b /\ o_stored b' = o_stored b /\ o_key b' = o_key b.
Definition keep (s s' : sys) : Prop := forall o b', oget (s_objs s') o = Some b' -> exists b, oget (s_objs s) o = Some b /\ same b b'.
Lemma same_refl : forall b, same b b.
Proof. intro b. repeat split. Qed.
Lemma same_trans : forall a b c, same a b -> same b c -> same a c.
Proof. intros a b c [A1 [A2 [A3 A4]]] [B1 [B2 [B3 B4]]]. repeat split; congruence. Qed.
Lemma keep_refl : forall s, keep s s.
Proof. intros s o b H. exists b. split; [assumption|apply same_refl]. Qed.
Lemma keep_trans : forall a b c, keep a b -> keep b c -> keep a c.
Proof.
  intros a b c H1 H2 o x Hx. destruct (H2 _ _ Hx) as [y [Hy S2]]. destruct (H1 _ _ Hy) as [z [Hz S1]]. exists z. split; [assumption|]. eapply same_trans; eauto.
Qed.
Lemma keep_objs : forall s s', s_objs s' = s_objs s -> keep s s'.
Proof. intros s s' H o b Hb. rewrite H in Hb. exists b. split; [assumption|apply same_refl]. Qed.

Definition quiet (ob : list obs) : Prop := rc_of ob = [] /\ handed_tr ob = [].
Lemma quiet_nil : quiet [].
Proof. split; reflexivity. Qed.
Lemma rc_of_app : forall a b, rc_of (a ++ b) = rc_of a ++ rc_of b.
Proof. intros. unfold rc_of. apply flat_map_app. Qed.
Lemma handed_app : forall a b, handed_tr (a ++ b) = handed_tr a ++ handed_tr b.
Proof. induction a as [|x a IH]; intro b; [reflexivity|]. destruct x; cbn; try apply IH. rewrite IH, app_assoc. reflexivity. Qed.
Lemma quiet_app : forall a b, quiet a -> quiet b -> quiet (a ++ b).
Proof. intros a b [A1 A2] [B1 B2]. split; [rewrite rc_of_app, A1, B1|rewrite handed_app, A2, B2]; reflexivity. Qed.

Lemma unlock_keep : forall s o s' ob, NoDup (map fst (s_objs s)) -> fragDataUnlock s o = Ok (s', ob) ->
  keep s s' /\ s_frfree s <= s_frfree s' /\ s_ct s' = s_ct s /\ s_bkfree s' = s_bkfree s /\ NoDup (map fst (s_objs s')) /\ quiet ob /\ s_next s' = s_next s.
Proof.
  intros s o s' ob N H. unfold fragDataUnlock in H. destruct (oget (s_objs s) o) as [b|] eqn:E; [|discriminate].
  destruct (o_ref b - 1 =? 0).
  - injection H as <- <-. cbn [add_fr add_disc add_fd set_objs s_objs s_frfree s_ct s_bkfree s_next].
    split. { intros o' b' Hb. cbn [add_fr add_disc add_fd set_objs s_objs] in Hb. rewrite oget_odel in Hb by assumption. destruct (o =? o'); [discriminate|]. exists b'. split; [assumption|apply same_refl]. }
    split; [pose proof (zlen_nonneg _ (o_stored b)); lia|]. split; [reflexivity|]. split; [reflexivity|]. split; [apply odel_nodup; assumption|]. split; [split; reflexivity|reflexivity].
  - injection H as <- <-. cbn [set_objs s_objs s_frfree s_ct s_bkfree s_next].
    split. { intros o' b' Hb. cbn [set_objs s_objs] in Hb. rewrite oget_oset in Hb by eauto. destruct (o =? o') eqn:Eo; [|exists b'; split; [assumption|apply same_refl]].
      assert (o' = o) by lia. subst o'. exists b. split; [assumption|]. injection Hb as <-. repeat split. }
    split; [lia|]. split; [reflexivity|]. split; [reflexivity|]. split; [rewrite oset_fst; assumption|]. split; [apply quiet_nil|reflexivity].
Qed.

Lemma lock_keep : forall s o s', fragDataLock s o = Ok s' ->
  keep s s' /\ s_frfree s' = s_frfree s /\ s_ct s' = s_ct s /\ s_bkfree s' = s_bkfree s.
Proof.
  intros s o s' H. unfold fragDataLock in H. destruct (oget (s_objs s) o) as [b|] eqn:E; [|discriminate]. injection H as <-.
  split; [|split; [reflexivity|split; reflexivity]]. intros o' b' Hb. cbn [set_objs s_objs] in Hb. rewrite oget_oset in Hb by eauto.
  destruct (o =? o') eqn:Eo; [|exists b'; split; [assumption|apply same_refl]].
  assert (o' = o) by lia. subst o'. exists b. split; [assumption|]. injection Hb as <-. repeat split.
Qed.

Lemma callbacks_keep : forall ev s s' ob, NoDup (map fst (s_objs s)) -> callbacks s ev = Ok (s', ob) ->
  keep s s' /\ s_frfree s <= s_frfree s' /\ s_ct s' = s_ct s /\ quiet ob /\ s_bkfree s' = s_bkfree s + zlen (freed_buckets ev) - zlen (allocated ev).
Proof.
  induction ev as [|e ev IH]; intros s s' ob N H.
  - cbn in H. injection H as <- <-. split; [apply keep_refl|]. split; [lia|]. split; [reflexivity|]. split; [apply quiet_nil|]. cbn. unfold zlen. cbn. lia.
  - assert (Step : exists s1 ob1 ob2, callbacks s1 ev = Ok (s', ob2) /\ ob = ob1 ++ ob2 /\ keep s s1 /\ s_frfree s <= s_frfree s1 /\ s_ct s1 = s_ct s /\ NoDup (map fst (s_objs s1)) /\ quiet ob1 /\
        s_bkfree s1 = s_bkfree s + match e with FreeBucket _ => 1 | AllocBucket (Some _) => -1 | _ => 0 end).
    { destruct e as [d|m|[m|]]; cbn [callbacks] in H.
      - destruct (fragDataUnlock s d) as [[s1 ob1]| | |] eqn:Eu; try discriminate. cbn [obind] in H.
        destruct (callbacks s1 ev) as [[s2 ob2]| | |] eqn:Ec; try discriminate. cbn [obind] in H. injection H as <- <-.
        destruct (unlock_keep _ _ _ _ N Eu) as [K1 [K2 [K3 [K4 [K5 [K6 _]]]]]]. exists s1, ob1, ob2. split; [assumption|]. split; [reflexivity|]. split; [assumption|]. split; [assumption|]. split; [assumption|]. split; [assumption|]. split; [assumption|]. lia.
      - cbn [obind] in H. destruct (callbacks (add_bk s 1) ev) as [[s2 ob2]| | |] eqn:Ec; try discriminate. cbn [obind] in H. injection H as <- <-.
        exists (add_bk s 1), [], ob2. split; [assumption|]. split; [reflexivity|]. split; [apply keep_objs; reflexivity|]. split; [cbn; lia|]. split; [reflexivity|]. split; [assumption|]. split; [apply quiet_nil|]. reflexivity.
      - cbn [obind] in H. destruct (callbacks (add_bk s (-1)) ev) as [[s2 ob2]| | |] eqn:Ec; try discriminate. cbn [obind] in H. injection H as <- <-.
        exists (add_bk s (-1)), [], ob2. split; [assumption|]. split; [reflexivity|]. split; [apply keep_objs; reflexivity|]. split; [cbn; lia|]. split; [reflexivity|]. split; [assumption|]. split; [apply quiet_nil|]. reflexivity.
      - cbn [obind] in H. destruct (callbacks s ev) as [[s2 ob2]| | |] eqn:Ec; try discriminate. cbn [obind] in H. injection H as <- <-.
        exists s, [], ob2. split; [assumption|]. split; [reflexivity|]. split; [apply keep_refl|]. split; [lia|]. split; [reflexivity|]. split; [assumption|]. split; [apply quiet_nil|]. lia. }
    destruct Step as [s1 [ob1 [ob2 [Ec [-> [K1 [K2 [K3 [K4 [K5 K6]]]]]]]]]].
    destruct (IH _ _ _ K4 Ec) as [L1 [L2 [L3 [L4 L5]]]]. split; [eapply keep_trans; eauto|]. split; [lia|]. split; [congruence|]. split; [apply quiet_app; assumption|].
    rewrite L5, K6. destruct e as [d|m|[m|]]; cbn [freed_buckets allocated]; unfold zlen; cbn [length]; lia.
Qed.

(** ** The link between the table and the sessions *)
Definition abs (b : obj) : sstate :=
  match o_state b with
  | Storing => SStoring (map f_data (o_stored b))
  | Valid => match o_val b with Some v => SValid v | None => SPoisoned end
  | Poisoned => SPoisoned
  end.
Lemma abs_same : forall b b', same b b' -> abs b' = abs b.
Proof. intros b b' [H1 [H2 [H3 _]]]. unfold abs. rewrite H1, H2, H3. reflexivity. Qed.

Definition linked (g : conf) (now : Z) (s : sys) (sm : smap) (cm : cmap) : Prop :=
  inv (g_hsize g) now (s_ct s) /\ rel now (s_ct s) cm /\
  (forall k e, live cm now k e -> e_ttl e = g_ttl g /\ exists b, oget (s_objs s) (e_data e) = Some b /\ sm k = Some (mkSess (abs b) (e_last e))) /\
  (forall k x, sm k = Some x -> now - ss_last x <= g_ttl g -> exists e, live cm now k e).
Definition Link g now s sm : Prop := exists cm, linked g now s sm cm.
(** Object [o] is that of the session of [k], which was just referenced. *)
Definition At g now s sm k o : Prop := exists cm, linked g now s sm cm /\ cm k = Some (mkEnt o now (g_ttl g)).

Lemma Link_later : forall g now now' s sm, Link g now s sm -> now <= now' -> Link g now' s sm.
Proof.
  intros g now now' s sm [cm [H1 [H2 [H3 H4]]]] Hn. exists cm. split; [eapply inv_later; eauto|]. split; [eapply rel_later; eauto|].
  assert (Lv : forall k e, live cm now' k e -> live cm now k e) by (intros k e [L1 L2]; split; [assumption|lia]).
  split; [intros k e L; apply H3; auto|]. intros k x Hx Hl. destruct (H4 _ _ Hx ltac:(lia)) as [e He].
  exists e. split; [exact (proj1 He)|]. destruct (H3 _ _ He) as [Ht [b [_ Hs]]]. rewrite Hx in Hs. injection Hs as Hs. subst x. cbn [ss_last] in Hl. lia.
Qed.
Lemma At_Link : forall g now s sm k o, At g now s sm k o -> Link g now s sm.
Proof. intros g now s sm k o [cm [H _]]. exists cm. assumption. Qed.

Lemma live_current : forall g now s sm cm k e, linked g now s sm cm -> live cm now k e ->
  exists b, oget (s_objs s) (e_data e) = Some b /\ current (g_ttl g) sm now k = Some (abs b) /\ e_ttl e = g_ttl g.
Proof.
  intros g now s sm cm k e [_ [_ [H3 _]]] L. destruct (H3 _ _ L) as [Ht [b [Hb Hs]]]. exists b. split; [assumption|]. split; [|assumption].
  unfold current. rewrite Hs. cbn [ss_last ss]. destruct L as [_ L]. destruct (now - e_last e <=? g_ttl g) eqn:E; [reflexivity|]. lia.
Qed.
Lemma absent_current : forall g now s sm cm k, linked g now s sm cm -> absent cm now k -> current (g_ttl g) sm now k = None.
Proof.
  intros g now s sm cm k [_ [_ [_ H4]]] A. unfold current. destruct (sm k) as [x|] eqn:E; [|reflexivity].
  destruct (now - ss_last x <=? g_ttl g) eqn:El; [|reflexivity]. destruct (H4 _ _ E ltac:(lia)) as [e He]. exfalso. exact (A _ He).
Qed.

Lemma stored_alive : forall g tr s ps D o, Inv g tr s ps D -> In o (stored_data (s_ct s)) -> exists b, oget (s_objs s) o = Some b.
Proof.
  intros g tr s ps D o I H. pose proof (v_ref _ _ _ _ _ I o) as R. rewrite cnt_app in R. apply cnt_in in H.
  pose proof (cnt_nonneg (flat_map held ps ++ D) o). unfold rc in R. destruct (oget (s_objs s) o); [eauto|lia].
Qed.
Lemma live_stored : forall now t cm k e, rel now t cm -> live cm now k e -> In (e_data e) (stored_data t) /\ exists c, in_tab t c /\ c_key c = k /\ ent_of c = e.
Proof.
  intros now t cm k e [_ R2] [L1 L2]. destruct (R2 _ _ L1 L2) as [c [Hc [Hk He]]]. split; [|eauto]. subst e. cbn [ent_of e_data]. apply in_tab_stored. assumption.
Qed.

(** The general step: the table of the new state represents [cm'], and what is live there was
    live before with the same object, whose contents are the same. *)
Lemma linked_step : forall g tr' ps' D' now s s' sm sm' cm cm', linked g now s sm cm -> Inv g tr' s' ps' D' ->
  (forall o b', In o (stored_data (s_ct s)) -> oget (s_objs s') o = Some b' -> exists b, oget (s_objs s) o = Some b /\ same b b') ->
  inv (g_hsize g) now (s_ct s') -> rel now (s_ct s') cm' ->
  (forall k e', live cm' now k e' -> exists e, live cm now k e /\ e_data e' = e_data e /\ e_ttl e' = e_ttl e /\ (forall st, sm k = Some (mkSess st (e_last e)) -> sm' k = Some (mkSess st (e_last e')))) ->
  (forall k x, sm' k = Some x -> now - ss_last x <= g_ttl g -> exists e, live cm' now k e) ->
  linked g now s' sm' cm'.
Proof.
  intros g tr' ps' D' now s s' sm sm' cm cm' L I K Hi Hr F B. split; [assumption|]. split; [assumption|]. split; [|assumption].
  intros k e' Lv. destruct (F _ _ Lv) as [e [Le [Ed [Et Hs]]]]. destruct L as [_ [Hrel [H3 _]]]. destruct (H3 _ _ Le) as [Ht [b [Hb Hsm]]].
  split; [congruence|]. destruct (live_stored _ _ _ _ _ Hr Lv) as [Hst _]. destruct (stored_alive _ _ _ _ _ _ I Hst) as [b' Hb'].
  exists b'. split; [assumption|]. destruct (live_stored _ _ _ _ _ Hrel Le) as [Hst0 _].
  assert (Hk : exists b0, oget (s_objs s) (e_data e') = Some b0 /\ same b0 b') by (apply K; [rewrite Ed; assumption|assumption]).
  destruct Hk as [b0 [Hb0 S0]]. rewrite Ed, Hb in Hb0. injection Hb0 as <-. rewrite (abs_same _ _ S0). auto.
Qed.

(** Nothing happens to the table. *)
Lemma linked_keep : forall g tr' ps' D' now s s' sm cm, linked g now s sm cm -> Inv g tr' s' ps' D' -> s_ct s' = s_ct s ->
  (forall o b', In o (stored_data (s_ct s)) -> oget (s_objs s') o = Some b' -> exists b, oget (s_objs s) o = Some b /\ same b b') ->
  linked g now s' sm cm.
Proof.
  intros g tr' ps' D' now s s' sm cm L I E K. eapply linked_step; eauto; rewrite ?E; try apply L.
Qed.
Lemma keep_st : forall s s', keep s s' -> forall o b', In o (stored_data (s_ct s)) -> oget (s_objs s') o = Some b' -> exists b, oget (s_objs s) o = Some b /\ same b b'.
Proof. intros s s' K o b' _ H. apply K. assumption. Qed.

Lemma sput_same : forall m k x, sput m k x k = Some x.
Proof. intros. unfold sput. destruct (list_eq_dec Z.eq_dec k k); congruence. Qed.
Lemma sput_other : forall m k x k', k' <> k -> sput m k x k' = m k'.
Proof. intros. unfold sput. destruct (list_eq_dec Z.eq_dec k k'); congruence. Qed.
Lemma sdel_same : forall m k, sdel m k k = None.
Proof. intros. unfold sdel. destruct (list_eq_dec Z.eq_dec k k); congruence. Qed.
Lemma sdel_other : forall m k k', k' <> k -> sdel m k k' = m k'.
Proof. intros. unfold sdel. destruct (list_eq_dec Z.eq_dec k k'); congruence. Qed.

(** The object of the session changes. *)
Lemma At_set : forall g tr ps D now s sm k o b b', At g now s sm k o -> Inv g tr s ps D -> 0 <= g_ttl g ->
  oget (s_objs s) o = Some b -> At g now (set_obj s o b') (sput sm k (mkSess (abs b') now)) k o.
Proof.
  intros g tr ps D now s sm k o b b' [cm [[H1 [H2 [H3 H4]]] Hk]] I Ht Hb. exists cm. split; [|assumption].
  assert (Hl : live cm now k (mkEnt o now (g_ttl g))) by (split; [assumption|cbn; lia]).
  split; [exact H1|]. split; [exact H2|]. split.
  - intros k' e Le. destruct (H3 _ _ Le) as [Et [b0 [Hb0 Hs]]]. split; [assumption|].
    cbn [set_obj set_objs s_objs]. rewrite oget_oset by eauto. destruct (o =? e_data e) eqn:Eo.
    + assert (Eq : e_data e = o) by lia.
      destruct (live_stored _ _ _ _ _ H2 Le) as [_ [c [Hc [Hck He]]]]. destruct (live_stored _ _ _ _ _ H2 Hl) as [_ [c2 [Hc2 [Hck2 He2]]]].
      assert (Ec : c_data c = o) by (subst e; exact Eq). assert (Ec2 : c_data c2 = o) by (change o with (e_data (mkEnt o now (g_ttl g))); rewrite <- He2; reflexivity).
      assert (o_key b = k').
      { rewrite <- Hck. apply (v_entry _ _ _ _ _ I); [assumption|]. rewrite Ec. assumption. }
      assert (o_key b = k).
      { rewrite <- Hck2. apply (v_entry _ _ _ _ _ I); [assumption|]. rewrite Ec2. assumption. }
      assert (Hkk : k' = k) by congruence. rewrite Hkk in *. destruct Le as [Le _]. rewrite Hk in Le. exists b'. split; [reflexivity|]. rewrite sput_same. f_equal. f_equal. replace e with (mkEnt o now (g_ttl g)) by congruence. reflexivity.
    + exists b0. split; [assumption|]. rewrite sput_other; [assumption|]. intros ->. destruct Le as [Le _]. rewrite Hk in Le. injection Le as <-. cbn [e_data] in Eo. lia.
  - intros k' x Hx Hl'. destruct (list_eq_dec Z.eq_dec k' k) as [->|Hn]; [eauto|]. rewrite sput_other in Hx by assumption. eauto.
Qed.

Lemma At_keep : forall g tr' ps' D' now s s' sm k o, At g now s sm k o -> Inv g tr' s' ps' D' -> s_ct s' = s_ct s -> keep s s' -> At g now s' sm k o.
Proof.
  intros g tr' ps' D' now s s' sm k o [cm [L Hk]] I E K. exists cm. split; [|assumption]. eapply linked_keep; eauto.
Qed.
Lemma At_obj : forall g now s sm k o, At g now s sm k o -> 0 <= g_ttl g -> exists b, oget (s_objs s) o = Some b /\ sm k = Some (mkSess (abs b) now).
Proof.
  intros g now s sm k o [cm [L Hk]] Ht. assert (Hl : live cm now k (mkEnt o now (g_ttl g))) by (split; [assumption|cbn; lia]).
  destruct L as [_ [_ [H3 _]]]. destruct (H3 _ _ Hl) as [_ [b [Hb Hs]]]. exists b. auto.
Qed.

(** ** Steps *)
Lemma adv : forall g tr s p a s' p' ob, conf_ok g -> Inv g tr s [p] [] -> Bk g s -> tstep g s p a = Ok (s', p', ob) ->
  Inv g (tr ++ ob) s' [p'] [] /\ Bk g s'.
Proof.
  intros g tr s p a s' p' ob G I B H. destruct (tstep_ok g tr s p [] a G I B) as [[s1 [p1 [ob1 [E [I1 B1]]]]]|[c [o [_ [_ E]]]]]; rewrite E in H; [|discriminate].
  assert (s1 = s' /\ p1 = p' /\ ob1 = ob) by (repeat split; congruence). destruct H0 as [-> [-> ->]]. auto.
Qed.

Lemma fin_last : forall n g s p a s' ob, tstep g s p a = Ok (s', Idle, ob) -> finish (S n) g s p a = Ok (s', ob).
Proof. intros. cbn [finish]. rewrite H. reflexivity. Qed.
Lemma fin_step : forall n g s p a s1 p1 ob1 s2 ob2, tstep g s p a = Ok (s1, p1, ob1) -> p1 <> Idle -> finish n g s1 p1 a = Ok (s2, ob2) ->
  finish (S n) g s p a = Ok (s2, ob1 ++ ob2).
Proof. intros. cbn [finish]. rewrite H. cbn [obind]. destruct p1; try (rewrite H1; reflexivity). congruence. Qed.

(** Releasing the object is the last thing but one. *)
Lemma unl_fin : forall n g tr s c o r v a sm, conf_ok g -> Inv g tr s [PUnl c o r v] [] -> Bk g s -> Link g (c_now c) s sm ->
  exists s' ob, finish (S n) g s (PUnl c o r v) a = Ok (s', ob) /\ Inv g (tr ++ ob) s' [Idle] [] /\ Bk g s' /\ Link g (c_now c) s' sm /\
    rc_of ob = [(r, v)] /\ handed_of ob = [].
Proof.
  intros n g tr s c o r v a sm G I B [cm L].
  destruct (tstep_ok g tr s (PUnl c o r v) [] a G I B) as [[s1 [p1 [ob1 [E _]]]]|[? [? [E _]]]]; [|discriminate].
  cbn [tstep] in E. destruct (fragDataUnlock s o) as [[s2 ob2]| | |] eqn:Eu; try discriminate.
  destruct (unlock_keep _ _ _ _ (v_nodup _ _ _ _ _ I) Eu) as [K1 [K2 [K3 [K4 [K5 [[K6 K7] K8]]]]]].
  assert (Et : tstep g s (PUnl c o r v) a = Ok (s2, Idle, ob2 ++ ret c r v)) by (cbn [tstep]; rewrite Eu; reflexivity).
  destruct (adv _ _ _ _ _ _ _ _ G I B Et) as [I2 B2].
  exists s2, (ob2 ++ ret c r v). split; [apply fin_last; assumption|]. split; [assumption|]. split; [assumption|].
  split; [exists cm; eapply linked_keep; eauto|].
  split; [rewrite rc_of_app, K6; reflexivity|]. unfold handed_of. rewrite handed_app, K7. reflexivity.
Qed.

Definition ends (g : conf) (now : Z) (tr : list obs) (r : outcome (sys * list obs)) (an : answer) (sm : smap) : Prop :=
  exists s' ob, r = Ok (s', ob) /\ Inv g (tr ++ ob) s' [Idle] [] /\ Bk g s' /\ Link g now s' sm /\
    rc_of ob = [(an_rc an, an_val an)] /\ handed_of ob = an_back an.

Lemma Link_ext : forall g now s sm sm', Link g now s sm -> (forall k, sm' k = sm k) -> Link g now s sm'.
Proof.
  intros g now s sm sm' [cm [H1 [H2 [H3 H4]]]] E. exists cm. split; [assumption|]. split; [assumption|]. split.
  - intros k e L. rewrite E. auto.
  - intros k x Hx. rewrite E in Hx. eauto.
Qed.
Lemma ends_ext : forall g now tr r an sm sm', ends g now tr r an sm -> (forall k, sm' k = sm k) -> ends g now tr r an sm'.
Proof. intros g now tr r an sm sm' [s' [ob [H1 [H2 [H3 [H4 H5]]]]]] E. exists s', ob. repeat (split; [assumption|]). split; [eapply Link_ext; eauto|assumption]. Qed.

(** One quiet step, then the rest. *)
Lemma ends_step : forall n g now tr s p a s1 p1 ob1 an sm, tstep g s p a = Ok (s1, p1, ob1) -> p1 <> Idle -> quiet ob1 ->
  ends g now (tr ++ ob1) (finish n g s1 p1 a) an sm -> ends g now tr (finish (S n) g s p a) an sm.
Proof.
  intros n g now tr s p a s1 p1 ob1 an sm E Hn [Q1 Q2] [s' [ob [H1 [H2 [H3 [H4 [H5 H6]]]]]]].
  exists s', (ob1 ++ ob). split; [eapply fin_step; eauto|]. rewrite app_assoc. repeat (split; [assumption|]).
  split; [rewrite rc_of_app, Q1; assumption|]. unfold handed_of in *. rewrite handed_app, Q2. assumption.
Qed.
Lemma ends_unl : forall n g tr s c o r v a sm, conf_ok g -> Inv g tr s [PUnl c o r v] [] -> Bk g s -> Link g (c_now c) s sm ->
  ends g (c_now c) tr (finish (S n) g s (PUnl c o r v) a) (mkAns r v []) sm.
Proof. intros n g tr s c o r v a sm G I B L. exact (unl_fin n g tr s c o r v a sm G I B L). Qed.

Lemma refused_unl : forall n g tr s p c o a sm, conf_ok g -> Inv g tr s [p] [] -> Bk g s -> Link g (c_now c) s sm ->
  tstep g s p a = Ok (s, PUnl c o (-1) None, []) -> ends g (c_now c) tr (finish (S (S n)) g s p a) refused sm.
Proof.
  intros n g tr s p c o a sm G I B L E. destruct (adv _ _ _ _ _ _ _ _ G I B E) as [I1 B1].
  eapply ends_step; [exact E|discriminate|apply quiet_nil|]. apply ends_unl; assumption.
Qed.

(** A release that is not the last step. *)
Lemma unl_mid : forall g tr s p o now sm a s1 p1 ob1, conf_ok g -> Inv g tr s [p] [] -> Bk g s -> Link g now s sm ->
  (forall s2 ob2, fragDataUnlock s o = Ok (s2, ob2) -> tstep g s p a = Ok (s2, p1, ob2)) ->
  tstep g s p a = Ok (s1, p1, ob1) -> (exists x, fragDataUnlock s o = Ok x) ->
  quiet ob1 /\ Link g now s1 sm /\ Inv g (tr ++ ob1) s1 [p1] [] /\ Bk g s1.
Proof.
  intros g tr s p o now sm a s1 p1 ob1 G I B [cm L] H E [[s2 ob2] Eu]. specialize (H _ _ Eu). rewrite H in E.
  assert (s2 = s1 /\ ob2 = ob1) by (split; congruence). destruct H0 as [-> ->].
  destruct (unlock_keep _ _ _ _ (v_nodup _ _ _ _ _ I) Eu) as [K1 [K2 [K3 [K4 [K5 [K6 K8]]]]]].
  destruct (adv _ _ _ _ _ _ _ _ G I B H) as [I2 B2]. split; [assumption|]. split; [|auto].
  exists cm. eapply linked_keep; eauto.
Qed.

Definition body_result (g : conf) (tr : list obs) (r : outcome (sys * list obs)) (nofrag : Prop) (sm : smap) (st : sstate) (c : call) (done : bool) : Prop :=
  let k := c_k c in let now := c_now c in
  match c with
  | CFirst _ _ v want =>
      match st with
      | SStoring l => ends g now tr r (mkAns 0 None (if want then l else [])) (sput sm k (mkSess (SValid v) now))
      | _ => ends g now tr r refused sm
      end
  | CGet _ _ => match st with SValid v => ends g now tr r (mkAns 0 (Some v) []) sm | _ => ends g now tr r refused sm end
  | CStore _ _ d =>
      match st with
      | SValid v => ends g now tr r (mkAns 0 (Some v) []) (if done then sdel sm k else sm)
      | SPoisoned => ends g now tr r refused sm
      | SStoring l =>
          zlen d <= g_mtu g /\ ends g now tr r (mkAns 1 None []) (sput sm k (mkSess (SStoring (d :: l)) now)) \/
          g_mtu g < zlen d /\ ends g now tr r refused sm \/
          zlen d <= g_mtu g /\ nofrag /\ ends g now tr r refused (sput sm k (mkSess SPoisoned now))
      end
  end.

Lemma abs_state : forall tr b, good tr b ->
  match abs b with SStoring l => o_state b = Storing /\ l = map f_data (o_stored b) | SValid v => o_state b = Valid /\ o_val b = Some v | SPoisoned => o_state b = Poisoned end.
Proof.
  intros tr b [_ [G2 _]]. unfold abs. destruct (o_state b) eqn:E; auto. destruct (o_val b); [auto|]. exfalso. apply G2; reflexivity.
Qed.

Lemma val_fin : forall n g tr s c o b v a sm, conf_ok g -> Inv g tr s [PVal c o] [] -> Bk g s -> Link g (c_now c) s sm ->
  oget (s_objs s) o = Some b -> o_val b = Some v -> ends g (c_now c) tr (finish (S (S n)) g s (PVal c o) a) (mkAns 0 (Some v) []) sm.
Proof.
  intros n g tr s c o b v a sm G I B L Hb Hv.
  assert (E : tstep g s (PVal c o) a = Ok (s, PUnl c o 0 (Some v), [])) by (cbn [tstep]; rewrite Hb, Hv; reflexivity).
  destruct (adv _ _ _ _ _ _ _ _ G I B E) as [I1 B1]. eapply ends_step; [exact E|discriminate|apply quiet_nil|]. apply ends_unl; assumption.
Qed.

Lemma body_fin : forall n g tr s c o sm b done, conf_ok g -> 0 <= g_ttl g -> 0 <= c_now c < two64 -> Inv g tr s [PBody c o] [] -> Bk g s ->
  At g (c_now c) s sm (c_k c) o -> oget (s_objs s) o = Some b ->
  body_result g tr (finish (S (S (S (S (S (S n)))))) g s (PBody c o) (mkChoice c done false)) (s_frfree s <= 0) sm (abs b) c done.
Proof.
  intros n g tr s c o sm b done G Ht Hnow I B A Hb. set (a := mkChoice c done false).
  pose proof (At_Link _ _ _ _ _ _ A) as L. pose proof (v_good _ _ _ _ _ I _ _ Hb) as Hg. pose proof (abs_state _ _ Hg) as HA.
  unfold body_result. destruct c as [now k v want|now k|now k d]; cbn [c_now c_k] in *.
  - destruct (abs b) as [l|v0|] eqn:Ea.
    + destruct HA as [Hs ->]. set (c := CFirst now k v want) in *. set (b' := mkObj (o_ref b) Valid (Some v) [] (o_key b)).
      assert (E : tstep g s (PBody c o) a = Ok (set_obj s o b', PTaken c o (o_stored b), [Accepted k v])) by (cbn [tstep]; unfold c; rewrite Hb, Hs; reflexivity).
      destruct (adv _ _ _ _ _ _ _ _ G I B E) as [I1 B1]. pose proof (At_set _ _ _ _ _ _ _ _ _ _ b' A I Ht Hb) as A1. change (abs b') with (SValid v) in A1.
      eapply ends_step; [exact E|discriminate|split; reflexivity|]. pose proof (At_Link _ _ _ _ _ _ A1) as L1.
      destruct (held_alive _ _ _ _ _ _ o I1 eq_refl) as [b1 Hb1].
      destruct (tstep_ok _ _ _ _ [] a G I1 B1) as [[s2 [p2 [ob2 [E2 _]]]]|[? [? [E2 _]]]]; [|discriminate].
      assert (Ex : exists x, fragDataUnlock (set_obj s o b') o = Ok x) by (unfold fragDataUnlock; rewrite Hb1; destruct (o_ref b1 - 1 =? 0); eauto).
      assert (Ef : forall s3 ob3, fragDataUnlock (set_obj s o b') o = Ok (s3, ob3) -> tstep g (set_obj s o b') (PTaken c o (o_stored b)) a = Ok (s3, PGive c (o_stored b), ob3)) by (intros s3 ob3 Eu; cbn [tstep]; rewrite Eu; reflexivity).
      assert (p2 = PGive c (o_stored b)). { destruct Ex as [[s3 ob3] Eu]. specialize (Ef _ _ Eu). congruence. } subst p2.
      destruct (unl_mid _ _ _ _ o _ _ a _ _ _ G I1 B1 L1 Ef E2 Ex) as [Q2 [L2 [I2 B2]]].
      eapply ends_step; [exact E2|discriminate|assumption|].
      destruct want.
      * assert (E3 : tstep g s2 (PGive c (o_stored b)) a = Ok (add_fr s2 (zlen (o_stored b)), Idle, Handed k (o_stored b) :: ret c 0 None)) by reflexivity.
        destruct (adv _ _ _ _ _ _ _ _ G I2 B2 E3) as [I3 B3]. do 2 eexists. split; [apply fin_last; exact E3|]. split; [exact I3|]. split; [assumption|].
        split; [destruct L2 as [cm L2]; exists cm; eapply linked_keep; [exact L2|exact I3|reflexivity|apply keep_st; apply keep_objs; reflexivity]|].
        split; [reflexivity|]. unfold handed_of. cbn [handed_tr ret]. rewrite app_nil_r. unfold tag. rewrite !map_map. reflexivity.
      * assert (E3 : tstep g s2 (PGive c (o_stored b)) a = Ok (add_fr (add_disc s2 (zlen (o_stored b))) (zlen (o_stored b)), Idle, Discarded k (o_stored b) :: ret c 0 None)) by reflexivity.
        destruct (adv _ _ _ _ _ _ _ _ G I2 B2 E3) as [I3 B3]. do 2 eexists. split; [apply fin_last; exact E3|]. split; [exact I3|]. split; [assumption|].
        split; [destruct L2 as [cm L2]; exists cm; eapply linked_keep; [exact L2|exact I3|reflexivity|apply keep_st; apply keep_objs; reflexivity]|].
        split; reflexivity.
    + destruct HA as [Hs _]. apply (refused_unl _ _ _ _ _ (CFirst now k v want) o); auto. cbn [tstep]. rewrite Hb, Hs. reflexivity.
    + apply (refused_unl _ _ _ _ _ (CFirst now k v want) o); auto. cbn [tstep]. rewrite Hb, HA. reflexivity.
  - destruct (abs b) as [l|v0|] eqn:Ea.
    + destruct HA as [Hs _]. apply (refused_unl _ _ _ _ _ (CGet now k) o); auto. cbn [tstep]. rewrite Hb, Hs. reflexivity.
    + destruct HA as [Hs Hv]. assert (E : tstep g s (PBody (CGet now k) o) a = Ok (s, PVal (CGet now k) o, [])) by (cbn [tstep]; rewrite Hb, Hs; reflexivity).
      destruct (adv _ _ _ _ _ _ _ _ G I B E) as [I1 B1]. eapply ends_step; [exact E|discriminate|apply quiet_nil|].
      apply (val_fin _ _ _ _ (CGet now k) o b); auto.
    + apply (refused_unl _ _ _ _ _ (CGet now k) o); auto. cbn [tstep]. rewrite Hb, HA. reflexivity.
  - set (c := CStore now k d) in *. destruct (abs b) as [l|v0|] eqn:Ea.
    + destruct HA as [Hs ->].
      assert (E : tstep g s (PBody c o) a = Ok (s, PCheck c o, [])) by (cbn [tstep]; unfold c; rewrite Hb, Hs; reflexivity).
      destruct (adv _ _ _ _ _ _ _ _ G I B E) as [I1 B1]. rewrite app_nil_r in I1.
      destruct (g_mtu g <? zlen d) eqn:Em.
      { right. left. split; [lia|]. eapply ends_step; [exact E|discriminate|apply quiet_nil|]. rewrite app_nil_r.
        apply (refused_unl _ _ _ _ _ c o); auto. cbn [tstep]. unfold c. rewrite Hb, Hs, Em. reflexivity. }
      assert (E2 : tstep g s (PCheck c o) a = Ok (s, PItem c o, [])) by (cbn [tstep]; unfold c; rewrite Hb, Hs, Em; reflexivity).
      destruct (adv _ _ _ _ _ _ _ _ G I1 B1 E2) as [I2 B2]. rewrite app_nil_r in I2.
      destruct (s_frfree s <=? 0) eqn:Ef.
      * right. right. split; [lia|]. split; [lia|]. eapply ends_step; [exact E|discriminate|apply quiet_nil|]. eapply ends_step; [exact E2|discriminate|apply quiet_nil|]. rewrite !app_nil_r.
        assert (E3 : tstep g s (PItem c o) a = Ok (s, PPoison c o, [])) by (cbn [tstep]; unfold c; rewrite Ef; reflexivity).
        destruct (adv _ _ _ _ _ _ _ _ G I2 B2 E3) as [I3 B3]. rewrite app_nil_r in I3. eapply ends_step; [exact E3|discriminate|apply quiet_nil|]. rewrite app_nil_r.
        set (b' := mkObj (o_ref b) Poisoned (o_val b) [] (o_key b)).
        assert (E4 : tstep g s (PPoison c o) a = Ok (set_obj s o b', PPoisoned c o (o_stored b), [])) by (cbn [tstep]; rewrite Hb; reflexivity).
        destruct (adv _ _ _ _ _ _ _ _ G I3 B3 E4) as [I4 B4]. rewrite app_nil_r in I4. eapply ends_step; [exact E4|discriminate|apply quiet_nil|]. rewrite app_nil_r.
        pose proof (At_set _ _ _ _ _ _ _ _ _ _ b' A I Ht Hb) as A1. change (abs b') with SPoisoned in A1. pose proof (At_Link _ _ _ _ _ _ A1) as L1.
        destruct (held_alive _ _ _ _ _ _ o I4 eq_refl) as [b1 Hb1].
        destruct (tstep_ok _ _ _ _ [] a G I4 B4) as [[s5 [p5 [ob5 [E5 _]]]]|[? [? [E5 _]]]]; [|discriminate].
        assert (Ex : exists x, fragDataUnlock (set_obj s o b') o = Ok x) by (unfold fragDataUnlock; rewrite Hb1; destruct (o_ref b1 - 1 =? 0); eauto).
        assert (Ef5 : forall s3 ob3, fragDataUnlock (set_obj s o b') o = Ok (s3, ob3) -> tstep g (set_obj s o b') (PPoisoned c o (o_stored b)) a = Ok (s3, PDrop c (o_stored b), ob3)) by (intros s3 ob3 Eu; cbn [tstep]; rewrite Eu; reflexivity).
        assert (p5 = PDrop c (o_stored b)). { destruct Ex as [[s3 ob3] Eu]. specialize (Ef5 _ _ Eu). congruence. } subst p5.
        destruct (unl_mid _ _ _ _ o _ _ a _ _ _ G I4 B4 L1 Ef5 E5 Ex) as [Q5 [L5 [I5 B5]]].
        eapply ends_step; [exact E5|discriminate|assumption|].
        assert (E6 : tstep g s5 (PDrop c (o_stored b)) a = Ok (add_fr (add_disc s5 (zlen (o_stored b))) (zlen (o_stored b)), Idle, Discarded k (o_stored b) :: ret c (-1) None)) by reflexivity.
        destruct (adv _ _ _ _ _ _ _ _ G I5 B5 E6) as [I6 B6]. do 2 eexists. split; [apply fin_last; exact E6|]. split; [exact I6|]. split; [assumption|].
        split; [destruct L5 as [cm L5]; exists cm; eapply linked_keep; [exact L5|exact I6|reflexivity|apply keep_st; apply keep_objs; reflexivity]|].
        split; reflexivity.
      * left. split; [lia|]. eapply ends_step; [exact E|discriminate|apply quiet_nil|]. eapply ends_step; [exact E2|discriminate|apply quiet_nil|]. rewrite !app_nil_r.
        set (f := mkFrag (s_next s) d). set (s3 := add_fr (set_next s (s_next s + 1)) (-1)).
        assert (E3 : tstep g s (PItem c o) a = Ok (s3, PPut c o f, [])) by (cbn [tstep]; unfold c; rewrite Ef; reflexivity).
        destruct (adv _ _ _ _ _ _ _ _ G I2 B2 E3) as [I3 B3]. rewrite app_nil_r in I3. eapply ends_step; [exact E3|discriminate|apply quiet_nil|]. rewrite app_nil_r.
        assert (A3 : At g now s3 sm k o) by (eapply At_keep; [exact A|exact I3|reflexivity|apply keep_objs; reflexivity]).
        set (b' := mkObj (o_ref b) Storing (o_val b) (f :: o_stored b) (o_key b)). assert (Hb3 : oget (s_objs s3) o = Some b) by exact Hb.
        assert (E4 : tstep g s3 (PPut c o f) a = Ok (set_obj s3 o b', PUnl c o 1 None, [Stored k f])) by (cbn [tstep]; rewrite Hb3, Hs; reflexivity).
        destruct (adv _ _ _ _ _ _ _ _ G I3 B3 E4) as [I4 B4]. eapply ends_step; [exact E4|discriminate|split; reflexivity|].
        pose proof (At_set _ _ _ _ _ _ _ _ _ _ b' A3 I3 Ht Hb3) as A4. change (abs b') with (SStoring (d :: map f_data (o_stored b))) in A4.
        apply ends_unl; auto. exact (At_Link _ _ _ _ _ _ A4).
    + destruct HA as [Hs Hv]. destruct done.
      * destruct A as [cm [Lk Hk]]. destruct Lk as [H1 [H2 [H3 H4]]].
        assert (Hl : live cm now k (mkEnt o now (g_ttl g))) by (split; [assumption|cbn; lia]).
        destruct (remove_step (g_hsize g) now (s_ct s) cm k H1 Hnow H2) as [t' [ev [Er [Hi Hr]]]].
        destruct (tstep_ok _ _ _ _ [] a G I B) as [[s1 [p1 [ob1 [E1 _]]]]|[? [? [E1 _]]]]; [|discriminate].
        pose proof E1 as E1'. cbn [tstep a a_done c] in E1'. unfold c in E1'. rewrite Hb, Hs in E1'. cbn [a a_done] in E1'. unfold table_op in E1'. cbn [cstep] in E1'. rewrite Er in E1'. cbn [obind] in E1'.
        destruct (callbacks (set_ct s t') ev) as [[s2 ob2]| | |] eqn:Ec; try discriminate. cbn [obind] in E1'. fold c in E1'.
        assert (X : s1 = inc_reas s2 /\ p1 = PCheck c o /\ ob1 = ob2) by (repeat split; congruence). destruct X as [-> [-> ->]].
        destruct (adv _ _ _ _ _ _ _ _ G I B E1) as [I1 B1].
        destruct (callbacks_keep ev (set_ct s t') s2 ob2 (v_nodup _ _ _ _ _ I) Ec) as [K1 [K2 [K3 [K4 _]]]]. cbn [set_ct s_ct] in K3.
        eapply ends_step; [exact E1|discriminate|assumption|].
        assert (Kst : forall o b', In o (stored_data (s_ct s)) -> oget (s_objs (inc_reas s2)) o = Some b' -> exists b0, oget (s_objs s) o = Some b0 /\ same b0 b') by (intros o' b' _ Hb'; exact (K1 _ _ Hb')).
        assert (L1 : Link g now (inc_reas s2) (sdel sm k)).
        { exists (del cm k). eapply (linked_step g _ _ _ now s (inc_reas s2) sm (sdel sm k) cm (del cm k)); [split; [exact H1|split; [exact H2|split; [exact H3|exact H4]]]|exact I1|exact Kst| | | |].
          - cbn [inc_reas s_ct]. rewrite K3. assumption.
          - cbn [inc_reas s_ct]. rewrite K3. assumption.
          - intros k' e [Le1 Le2]. destruct (list_eq_dec Z.eq_dec k' k) as [->|Hne]; [rewrite del_same in Le1; discriminate|]. rewrite del_other in Le1 by assumption.
            exists e. split; [split; assumption|]. split; [reflexivity|]. split; [reflexivity|]. intros st Hst. rewrite sdel_other by assumption. assumption.
          - intros k' x Hx Hl'. destruct (list_eq_dec Z.eq_dec k' k) as [->|Hne]; [rewrite sdel_same in Hx; discriminate|]. rewrite sdel_other in Hx by assumption.
            destruct (H4 _ _ Hx Hl') as [e [Le1 Le2]]. exists e. split; [rewrite del_other by assumption; assumption|assumption]. }
        destruct (held_alive _ _ _ _ _ _ o I1 eq_refl) as [b1 Hb1]. destruct (K1 _ _ Hb1) as [b0 [Hb0 [S1 [S2 _]]]].
        cbn [set_ct s_objs] in Hb0. rewrite Hb in Hb0. injection Hb0 as <-.
        assert (E2 : tstep g (inc_reas s2) (PCheck c o) a = Ok (inc_reas s2, PVal c o, [])) by (cbn [tstep]; rewrite Hb1, S1, Hs; reflexivity).
        destruct (adv _ _ _ _ _ _ _ _ G I1 B1 E2) as [I2 B2]. eapply ends_step; [exact E2|discriminate|apply quiet_nil|].
        apply (val_fin _ _ _ _ c o b1); auto. congruence.
      * assert (E : tstep g s (PBody c o) a = Ok (s, PCheck c o, [])) by (cbn [tstep]; unfold c; rewrite Hb, Hs; reflexivity).
        destruct (adv _ _ _ _ _ _ _ _ G I B E) as [I1 B1]. rewrite app_nil_r in I1. eapply ends_step; [exact E|discriminate|apply quiet_nil|]. rewrite app_nil_r.
        assert (E2 : tstep g s (PCheck c o) a = Ok (s, PVal c o, [])) by (cbn [tstep]; rewrite Hb, Hs; reflexivity).
        destruct (adv _ _ _ _ _ _ _ _ G I1 B1 E2) as [I2 B2]. eapply ends_step; [exact E2|discriminate|apply quiet_nil|].
        apply (val_fin _ _ _ _ c o b); auto.
    + assert (E : tstep g s (PBody c o) a = Ok (s, PCheck c o, [])) by (cbn [tstep]; unfold c; rewrite Hb, HA; reflexivity).
      destruct (adv _ _ _ _ _ _ _ _ G I B E) as [I1 B1]. rewrite app_nil_r in I1. eapply ends_step; [exact E|discriminate|apply quiet_nil|]. rewrite app_nil_r.
      apply (refused_unl _ _ _ _ _ c o); auto. cbn [tstep]. unfold c. rewrite Hb, HA. reflexivity.
Qed.

(** ** From the lookup to the body *)
Lemma lookup_alloc : forall t now k t' v ev, winv t -> ctLookup t now k = Ok (t', v, ev) -> allocated ev = [].
Proof.
  intros t now k t' v ev W E. unfold ctLookup in E. destruct (slot (t_buckets t) k) as [i| | |]; try discriminate. cbn [obind] in E.
  destruct (aget (t_buckets t) i) as [b| | |] eqn:Eb; try discriminate. apply aget_ok in Eb. cbn [obind] in E.
  destruct (lookupBucket b now) as [[b1 ev1] n] eqn:HL.
  destruct (lookupBucket_spec _ _ _ _ _ HL (W _ _ Eb)) as [_ [_ [_ [_ [_ [_ L7]]]]]].
  destruct (search b1 k now) as [[b' d]|]; injection E as _ _ <-; assumption.
Qed.

Lemma lookup_front : forall g tr s now k sm, conf_ok g -> 0 <= g_ttl g -> 0 <= now < two64 -> Inv g tr s [Idle] [] -> Bk g s -> Link g now s sm ->
  exists s1 o ob1, lookup_op s now k = Ok (s1, o, ob1) /\ quiet ob1 /\ s_frfree s <= s_frfree s1 /\ s_bkfree s <= s_bkfree s1 /\
    (o = 0 /\ current (g_ttl g) sm now k = None /\ (forall tr1 ps1 D1, Inv g tr1 s1 ps1 D1 -> Link g now s1 sm) \/
     o <> 0 /\ exists st, current (g_ttl g) sm now k = Some st /\
       (forall tr1 ps1 D1, Inv g tr1 s1 ps1 D1 -> At g now s1 (sput sm k (mkSess st now)) k o)).
Proof.
  intros g tr s now k sm G Ht Hnow I B [cm L]. pose proof L as [H1 [H2 [H3 H4]]].
  destruct (lookup_step (g_hsize g) now (s_ct s) cm k H1 Hnow H2) as [t' [v [ev [cm' [El [Sp [Hi Hr]]]]]]].
  destruct (lookup_op_ok g tr s Idle [] now k G I B eq_refl) as [s1 [o [ob [Eo [B1 Cases]]]]].
  exists s1, o, ob. split; [assumption|]. pose proof Eo as Eo'. unfold lookup_op, table_op in Eo. cbn [cstep] in Eo. rewrite El in Eo. cbn [obind] in Eo.
  destruct (callbacks (set_ct s t') ev) as [[s2 ob2]| | |] eqn:Ec; try discriminate. cbn [obind] in Eo.
  destruct (callbacks_keep ev (set_ct s t') s2 ob2 (v_nodup _ _ _ _ _ I) Ec) as [K1 [K2 [K3 [K4 K5]]]]. cbn [set_ct s_ct s_frfree s_bkfree] in K2, K3, K5.
  rewrite (lookup_alloc _ _ _ _ _ _ (v_wf _ _ _ _ _ I) El) in K5. change (zlen (@nil Z)) with 0 in K5. pose proof (zlen_nonneg _ (freed_buckets ev)).
  inversion Sp as [n0 k0 e Lv E1 E2 E3|n0 k0 Ab E1 E2 E3| | | | | | ]; subst n0 k0.
  - (* hit *)
    destruct (live_stored _ _ _ _ _ H2 Lv) as [Hst _]. destruct (stored_alive _ _ _ _ _ _ I Hst) as [b0 Hb0]. pose proof (v_ids _ _ _ _ _ I _ _ Hb0) as Hid.
    destruct (v =? 0) eqn:Ev; [rewrite <- E2 in Ev; lia|]. destruct (fragDataLock s2 v) as [s3| | |] eqn:Elk; try discriminate. cbn [obind] in Eo.
    assert (X : s3 = s1 /\ v = o /\ ob2 = ob) by (repeat split; congruence). destruct X as [-> [-> ->]].
    destruct (lock_keep _ _ _ Elk) as [M1 [M2 [M3 M4]]].
    split; [assumption|]. split; [lia|]. split; [lia|]. right. split; [lia|].
    destruct (live_current _ _ _ _ _ _ _ L Lv) as [b [Hb [Hc Het]]]. exists (abs b). split; [assumption|].
    intros tr1 ps1 D1 I1. exists cm'. rewrite <- E3. split; [|rewrite put_same, <- E2, Het; reflexivity].
    eapply (linked_step g _ _ _ now s s1 sm _ cm); [exact L|exact I1| | | | |].
    + intros o' b' _ Hb'. destruct (M1 _ _ Hb') as [b2 [Hb2 S2]]. destruct (K1 _ _ Hb2) as [b3 [Hb3 S3]]. exists b3. split; [exact Hb3|eapply same_trans; eauto].
    + rewrite M3, K3. assumption.
    + rewrite M3, K3, E3. assumption.
    + intros k' e' [Le1 Le2]. destruct (list_eq_dec Z.eq_dec k' k) as [->|Hne].
      * rewrite put_same in Le1. injection Le1 as <-. cbn [e_data e_ttl e_last]. exists e. split; [assumption|]. split; [reflexivity|]. split; [reflexivity|].
        intros st Hst'. rewrite sput_same. destruct (H3 _ _ Lv) as [_ [bb [Hbb Hsm]]]. rewrite Hst' in Hsm. rewrite Hb in Hbb. injection Hbb as <-. injection Hsm as ->. reflexivity.
      * rewrite put_other in Le1 by assumption. exists e'. split; [split; assumption|]. split; [reflexivity|]. split; [reflexivity|]. intros st Hst'. rewrite sput_other by assumption. assumption.
    + intros k' x Hx Hl. destruct (list_eq_dec Z.eq_dec k' k) as [->|Hne].
      * eexists. split; [apply put_same|]. cbn. lia.
      * rewrite sput_other in Hx by assumption. destruct (H4 _ _ Hx Hl) as [e' [Le1 Le2]]. exists e'. split; [rewrite put_other by assumption; assumption|assumption].
  - (* miss *)
    rewrite <- E2 in Eo. cbn [Z.eqb] in Eo. assert (X : s2 = s1 /\ 0 = o /\ ob2 = ob) by (repeat split; congruence). destruct X as [-> [<- ->]].
    split; [assumption|]. split; [lia|]. split; [lia|]. left. split; [reflexivity|]. split; [eapply absent_current; [exact L|rewrite E3; assumption]|].
    intros tr1 ps1 D1 I1. exists cm. eapply (linked_step g _ _ _ now s s1 sm sm cm cm); [exact L|exact I1| | | | |].
    + intros o' b' _ Hb'. exact (K1 _ _ Hb').
    + rewrite K3. assumption.
    + rewrite K3, E3. assumption.
    + intros k' e' Le. exists e'. auto.
    + exact H4.
Qed.

Lemma stored_bound : forall t, zlen (stored_data t) <= zlen (t_buckets t) + zlen (stored_buckets t).
Proof.
  intro t. unfold stored_data, stored_buckets. induction (t_buckets t) as [|b l IH]; [unfold zlen; cbn; lia|]. cbn [flat_map]. rewrite !zlen_app.
  assert (zlen (bucket_data b) <= 1 + zlen (map c_mem (b_chain b))).
  { unfold bucket_data. assert (Hf : forall l0 : list Z, zlen (filter (fun d => negb (d =? 0)) l0) <= zlen l0).
    { induction l0 as [|x l0 IH0]; [unfold zlen; cbn; lia|]. cbn [filter]. unfold zlen in *. destruct (negb (x =? 0)); cbn [length]; lia. }
    specialize (Hf (map c_data (b_main b :: b_chain b))). rewrite zlen_map in *. unfold zlen in *. cbn [length] in *. lia. }
  unfold zlen in *. cbn [length] in *. lia.
Qed.

Lemma full_pool : forall g tr s c, conf_seq g -> Inv g tr s [PAlloc c] [] -> Bk g s -> s_fdfree s <= 0 -> s_bkfree s = 0.
Proof.
  intros g tr s c [[G1 [G2 G3]] Gs] I [B1 B2] Hf. pose proof (v_fd _ _ _ _ _ I) as Fd. pose proof (v_fd0 _ _ _ _ _ I) as Fd0.
  unfold u32 in Fd. rewrite Z.mod_small in Fd by lia.
  assert (zlen (s_objs s) <= zlen (stored_data (s_ct s))).
  { pose proof (zlen_map _ _ fst (s_objs s)) as Em. rewrite <- Em. unfold zlen. apply inj_le. apply NoDup_incl_length; [exact (v_nodup _ _ _ _ _ I)|].
    intros o Ho. apply in_map_iff in Ho. destruct Ho as [[o' b] [<- Hi]]. cbn [fst]. apply In_oget in Hi; [|exact (v_nodup _ _ _ _ _ I)].
    pose proof (v_ref _ _ _ _ _ I o') as R. pose proof (v_pos _ _ _ _ _ I _ _ Hi). unfold rc in R. rewrite Hi in R. cbn [flat_map held holds app] in R. rewrite app_nil_r in R.
    apply cnt_pos_in. lia. }
  pose proof (stored_bound (s_ct s)). rewrite (v_len _ _ _ _ _ I) in *. lia.
Qed.

(** A new session. *)
Lemma new_front : forall n g tr s c sm a, conf_seq g -> 0 <= g_ttl g < two64 -> 0 <= c_now c < two64 -> a_starved a = false ->
  Inv g tr s [PAlloc c] [] -> Bk g s -> Link g (c_now c) s sm -> current (g_ttl g) sm (c_now c) (c_k c) = None ->
  s_bkfree s <= 0 /\ ends g (c_now c) tr (finish (S (S (S n))) g s (PAlloc c) a) refused sm \/
  exists s' o ob b, Inv g (tr ++ ob) s' [PBody c o] [] /\ Bk g s' /\ At g (c_now c) s' (sput sm (c_k c) (mkSess (SStoring []) (c_now c))) (c_k c) o /\
    s_frfree s <= s_frfree s' /\ oget (s_objs s') o = Some b /\ abs b = SStoring [] /\
    (forall an sm', ends g (c_now c) (tr ++ ob) (finish n g s' (PBody c o) a) an sm' -> ends g (c_now c) tr (finish (S (S (S n))) g s (PAlloc c) a) an sm').
Proof.
  intros n g tr s c sm a Gs Ht Hnow Ha I1 B1 [cm L1] Cn. pose proof (proj1 Gs) as G. set (now := c_now c) in *. set (k := c_k c) in *.
  destruct (s_fdfree s <=? 0) eqn:Efd.
  { left. assert (E2 : tstep g s (PAlloc c) a = Ok (s, Idle, ret c (-1) None)) by (cbn [tstep]; rewrite Efd; reflexivity).
    destruct (adv _ _ _ _ _ _ _ _ G I1 B1 E2) as [I2 B2]. pose proof (full_pool _ _ _ _ Gs I1 B1 ltac:(lia)) as Hz. split; [lia|].
    do 2 eexists. split; [apply fin_last; exact E2|]. split; [exact I2|]. split; [assumption|]. split; [exists cm; assumption|]. split; reflexivity. }
  set (o := s_next s). set (b0 := mkObj 1 Storing None [] k). set (s2 := add_fd (set_next (set_objs s ((o, b0) :: s_objs s)) (o + 1)) (-1)).
  assert (E2 : tstep g s (PAlloc c) a = Ok (s2, PIns c o, [])) by (cbn [tstep]; rewrite Efd; reflexivity).
  destruct (adv _ _ _ _ _ _ _ _ G I1 B1 E2) as [I2 B2]. rewrite app_nil_r in I2.
  assert (Hb2 : oget (s_objs s2) o = Some b0) by (cbn [s2 add_fd set_next set_objs s_objs oget fst snd]; rewrite Z.eqb_refl; reflexivity).
  assert (L2 : linked g now s2 sm cm).
  { eapply linked_keep; [exact L1|exact I2|reflexivity|].
    intros o' b' Hst Hb'. destruct (stored_alive _ _ _ _ _ _ I1 Hst) as [b1 Hb1]. pose proof (v_ids _ _ _ _ _ I1 _ _ Hb1).
    exists b1. split; [assumption|]. cbn [s2 add_fd set_next set_objs s_objs oget fst snd] in Hb'. destruct (o =? o') eqn:Eoo; [unfold o in Eoo; lia|]. rewrite Hb1 in Hb'. injection Hb' as <-. apply same_refl. }
  assert (Ab : absent cm now k) by (intros e Le; destruct (live_current _ _ _ _ _ _ _ L2 Le) as [? [_ [Hc _]]]; congruence).
  pose proof L2 as [H1 [H2 [H3 H4]]].
  assert (Ho : o <> 0) by (unfold o; pose proof (v_next _ _ _ _ _ I1); lia).
  destruct (insert_step (g_hsize g) now (s_ct s2) cm k (g_ttl g) o (Some (s_next s2)) H1 Hnow H2 Ht) as [t0 [v0 [ev0 [cm0 [Ei0 [_ _]]]]]].
  set (avail := negb (a_starved a) && (0 <? s_bkfree s2 + zlen (freed_buckets ev0))).
  destruct (insert_step (g_hsize g) now (s_ct s2) cm k (g_ttl g) o (if avail then Some (s_next s2) else None) H1 Hnow H2 Ht) as [t3 [v3 [ev3 [cm3 [Ei3 [Sp3 [Hi3 Hr3]]]]]]].
  destruct (tstep_ok _ _ _ _ [] a G I2 B2) as [[s3 [p3 [ob3 [E3 _]]]]|[? [? [E3 _]]]]; [|discriminate].
  pose proof E3 as E3'. cbn [tstep] in E3'. fold now k in E3'. unfold insert_op in E3'. rewrite Ei0 in E3'. cbn [obind] in E3'. fold avail in E3'. unfold table_op in E3'. cbn [cstep] in E3'.
  change (s_ct (set_next s2 (s_next s2 + 1))) with (s_ct s2) in E3'. rewrite Ei3 in E3'. cbn [obind] in E3'.
  destruct (callbacks (set_ct (set_next s2 (s_next s2 + 1)) t3) ev3) as [[s3' ob3']| | |] eqn:Ec; try discriminate. cbn [obind] in E3'.
  assert (X : s3' = s3 /\ ob3' = ob3 /\ p3 = (if v3 =? 0 then PInc c o else if v3 =? 1 then PLost c o else PFull c o)) by (repeat split; congruence). destruct X as [-> [-> ->]].
  destruct (adv _ _ _ _ _ _ _ _ G I2 B2 E3) as [I3 B3].
  destruct (callbacks_keep _ _ _ _ (v_nodup _ _ _ _ _ I2 : NoDup (map fst (s_objs (set_ct (set_next s2 (s_next s2 + 1)) t3)))) Ec) as [K1 [K2 [K3 [K4 K5]]]].
  cbn [set_ct set_next s_ct s_frfree s_bkfree] in K2, K3, K5.
  assert (Kst : forall o b', In o (stored_data (s_ct s2)) -> oget (s_objs s3) o = Some b' -> exists b0, oget (s_objs s2) o = Some b0 /\ same b0 b') by (intros o' b' _ Hb'; exact (K1 _ _ Hb')).
  inversion Sp3 as [ | | |n0 k0 t1 d0 al0 e Hd0 Lv Y1 Y2 Y3|n0 k0 t1 d0 al0 Hd0 Ab0 Y1 Y2 Y3|n0 k0 t1 d0 Hd0 Ab0 Y1 Y2 Y3| |].
  - exfalso. congruence.
  - exfalso. exact (Ab _ Lv).
  - (* inserted *)
    right. subst n0 k0 t1 d0. rewrite <- Y2 in *. cbn [Z.eqb] in E3, I3.
    assert (Hb3 : exists b3, oget (s_objs s3) o = Some b3) by (eapply stored_alive; [exact I3|]; rewrite K3; eapply insert_tab; [exact (v_wf _ _ _ _ _ I2)|exact Ei3]).
    destruct Hb3 as [b3 Hb3]. destruct (K1 _ _ Hb3) as [bb [Hbb Sb]]. change (s_objs (set_ct (set_next s2 (s_next s2 + 1)) t3)) with (s_objs s2) in Hbb. rewrite Hb2 in Hbb. injection Hbb as <-.
    assert (L3 : linked g now s3 (sput sm k (mkSess (SStoring []) now)) cm3).
    { split; [rewrite K3; assumption|]. split; [rewrite K3; assumption|]. rewrite <- Y3 in *. split.
      - intros k' e [Le1 Le2]. destruct (list_eq_dec Z.eq_dec k' k) as [->|Hne].
        + rewrite put_same in Le1. injection Le1 as <-. cbn [e_ttl e_data e_last]. split; [reflexivity|]. exists b3. split; [assumption|]. rewrite sput_same, (abs_same _ _ Sb). reflexivity.
        + pose proof (conj Le1 Le2 : live _ _ _ _) as Lput. rewrite put_other in Le1 by assumption. pose proof (conj Le1 Le2 : live cm now k' e) as Le.
          destruct (H3 _ _ Le) as [Et [b1 [Hb1 Hs1]]]. split; [assumption|].
          assert (Hin : In (e_data e) (stored_data (s_ct s3))) by (rewrite K3; eapply live_stored; eauto).
          destruct (stored_alive _ _ _ _ _ _ I3 Hin) as [b4 Hb4]. exists b4. split; [assumption|].
          destruct (K1 _ _ Hb4) as [b5 [Hb5 S5]]. change (s_objs (set_ct (set_next s2 (s_next s2 + 1)) t3)) with (s_objs s2) in Hb5. rewrite Hb1 in Hb5. injection Hb5 as <-.
          rewrite sput_other by assumption. rewrite (abs_same _ _ S5). assumption.
      - intros k' x Hx Hl. destruct (list_eq_dec Z.eq_dec k' k) as [->|Hne].
        + eexists. split; [apply put_same|]. cbn. lia.
        + rewrite sput_other in Hx by assumption. destruct (H4 _ _ Hx Hl) as [e [Le1 Le2]]. exists e. split; [rewrite put_other by assumption; assumption|assumption]. }
    destruct (fragDataLock s3 o) as [s4| | |] eqn:Elk; [|unfold fragDataLock in Elk; rewrite Hb3 in Elk; discriminate..].
    assert (E4 : tstep g s3 (PInc c o) a = Ok (s4, PBody c o, [])) by (cbn [tstep]; rewrite Elk; reflexivity).
    destruct (adv _ _ _ _ _ _ _ _ G I3 B3 E4) as [I4 B4]. destruct (lock_keep _ _ _ Elk) as [M1 [M2 [M3 M4]]].
    destruct (held_alive _ _ _ _ _ _ o I4 eq_refl) as [b4 Hb4]. destruct (M1 _ _ Hb4) as [b5 [Hb5 S5]]. rewrite Hb3 in Hb5. injection Hb5 as <-.
    exists s4, o, (ob3 ++ []), b4. split; [rewrite app_assoc; assumption|]. split; [assumption|]. split.
    { exists cm3. split; [|rewrite <- Y3; apply put_same]. eapply linked_keep; [exact L3|exact I4|assumption|apply keep_st; assumption]. }
    split; [rewrite M2; cbn [s2 add_fd set_next set_objs s_frfree] in K2; exact K2|]. split; [assumption|]. split; [rewrite (abs_same _ _ S5), (abs_same _ _ Sb); reflexivity|].
    intros an sm' He. eapply ends_step; [exact E2|discriminate|apply quiet_nil|]. rewrite app_nil_r. eapply ends_step; [exact E3|discriminate|assumption|].
    eapply ends_step; [exact E4|discriminate|apply quiet_nil|]. rewrite !app_nil_r in *. exact He.
  - (* no bucket *)
    left. rewrite <- Y2 in *. cbn [Z.eqb] in E3, I3.
    assert (Hz : s_bkfree s2 + zlen (freed_buckets ev0) <= 0).
    { destruct avail eqn:Eav; [discriminate|]. unfold avail in Eav. rewrite Ha in Eav. cbn [negb andb] in Eav. lia. }
    pose proof (zlen_nonneg _ (freed_buckets ev0)). split; [cbn [s2 add_fd set_next set_objs s_bkfree] in Hz; lia|].
    assert (L3 : linked g now s3 sm cm).
    { eapply (linked_step g _ _ _ now s2 s3 sm sm cm cm); [exact L2|exact I3|exact Kst| | | |exact H4].
      - rewrite K3. assumption.
      - rewrite K3, Y3. assumption.
      - intros k' e Le. exists e. auto. }
    eapply ends_step; [exact E2|discriminate|apply quiet_nil|]. rewrite app_nil_r. eapply ends_step; [exact E3|discriminate|assumption|].
    destruct (held_alive _ _ _ _ _ _ o I3 eq_refl) as [b3 Hb3].
    assert (Ex : exists x, fragDataUnlock s3 o = Ok x) by (unfold fragDataUnlock; rewrite Hb3; destruct (o_ref b3 - 1 =? 0); eauto). destruct Ex as [[s4 ob4] Eu].
    assert (E4 : tstep g s3 (PFull c o) a = Ok (s4, Idle, ob4 ++ ret c (-1) None)) by (cbn [tstep]; rewrite Eu; reflexivity).
    destruct (adv _ _ _ _ _ _ _ _ G I3 B3 E4) as [I4 B4]. destruct (unlock_keep _ _ _ _ (v_nodup _ _ _ _ _ I3) Eu) as [M1 [M2 [M3 [M4 [M5 [[M6 M7] M8]]]]]].
    do 2 eexists. split; [apply fin_last; exact E4|]. split; [exact I4|]. split; [assumption|].
    split; [exists cm; eapply linked_keep; [exact L3|exact I4|assumption|apply keep_st; assumption]|].
    split; [rewrite rc_of_app, M6; reflexivity|]. unfold handed_of. rewrite handed_app, M7. reflexivity.
Qed.

(** The sequential theorem for one call. *)
Lemma call_ok : forall g tr s sm c done, conf_seq g -> 0 <= g_ttl g < two64 -> 0 <= c_now c < two64 -> Inv g tr s [Idle] [] -> Bk g s -> Link g (c_now c) s sm ->
  exists an sm', call_spec (no_bucket g s) (no_frag g s) (g_ttl g) (g_mtu g) sm c done an sm' /\ ends g (c_now c) tr (call_op g s c done) an sm'.
Proof.
  intros g tr s sm c done Gs Ht Hnow I B L. pose proof (proj1 Gs) as G. unfold call_op. set (a := mkChoice c done false).
  destruct (lookup_front g tr s (c_now c) (c_k c) sm G ltac:(lia) Hnow I B L) as [s1 [o [ob1 [El [Q1 [Hfr [Hbk Cases]]]]]]].
  assert (NB : s_bkfree s1 <= 0 -> no_bucket g s) by (intros Hz; unfold no_bucket; destruct B; lia).
  assert (NF : s_frfree s <= 0 -> no_frag g s).
  { intro Hz. unfold no_frag. pose proof (v_fr _ _ _ _ _ I) as F. pose proof (v_fr0 _ _ _ _ _ I). cbn [flat_map taken hand app] in F. change (zlen (@nil (ckey * frag))) with 0 in F. change (zlen (@nil frag)) with 0 in F. lia. }
  assert (SS : forall m k x y k', sput (sput m k x) k y k' = sput m k y k').
  { intros m k x y k'. unfold sput. destruct (list_eq_dec Z.eq_dec k k'); reflexivity. }
  assert (DS : forall m k x k', sdel (sput m k x) k k' = sdel m k k').
  { intros m k x k'. unfold sdel, sput. destruct (list_eq_dec Z.eq_dec k k'); reflexivity. }
  destruct Cases as [[-> [Cn HL]]|[Ho [st [Cs HA]]]].
  - (* no session *)
    assert (Get : (exists now k, c = CGet now k) \/ tstep g s Idle a = Ok (s1, PAlloc c, ob1)).
    { cbn [tstep a a_call]. rewrite El. cbn [obind Z.eqb]. destruct c; [right; reflexivity|left; eauto|right; reflexivity]. }
    destruct Get as [[now [k ->]]|E].
    { cbn [c_now c_k] in *.
      assert (E : tstep g s Idle a = Ok (s1, Idle, ob1 ++ ret (CGet now k) (-1) None)) by (cbn [tstep a a_call c_now c_k]; rewrite El; reflexivity).
      destruct (adv _ _ _ _ _ _ _ _ G I B E) as [I1 B1]. exists refused, sm. split; [apply gs_none; assumption|].
      do 2 eexists. split; [apply fin_last; exact E|]. split; [exact I1|]. split; [assumption|]. split; [eapply HL; exact I1|]. destruct Q1 as [Q1 Q2].
      split; [rewrite rc_of_app, Q1; reflexivity|]. unfold handed_of. rewrite handed_app, Q2. reflexivity. }
    destruct (adv _ _ _ _ _ _ _ _ G I B E) as [I1 B1]. pose proof (HL _ _ _ I1) as L1.
    assert (Fr : forall an sm', ends g (c_now c) (tr ++ ob1) (finish 11 g s1 (PAlloc c) a) an sm' -> ends g (c_now c) tr (finish 12 g s Idle a) an sm') by (intros an sm' He; eapply ends_step; [exact E|discriminate|assumption|exact He]).
    assert (NG : forall now k, c <> CGet now k).
    { intros now k ->. cbn [tstep a a_call] in E. rewrite El in E. discriminate. }
    destruct (new_front 8 g (tr ++ ob1) s1 c sm a Gs Ht Hnow eq_refl I1 B1 L1 Cn) as [[Hz He]|[s2 [o [ob2 [b [I2 [B2 [A2 [Hf2 [Hb2 [Hab Hfin]]]]]]]]]]].
    + exists refused, sm. split; [|apply Fr; exact He]. destruct c as [now k v want|now k|now k d]; cbn [call_spec c_now c_k] in *.
      * apply fs_full; auto.
      * exfalso. eapply NG. reflexivity.
      * apply os_full; auto.
    + pose proof (body_fin 2 g _ s2 c o _ b done G ltac:(lia) Hnow I2 B2 A2 Hb2) as R. fold a in R. rewrite Hab in R. unfold body_result in R.
      destruct c as [now k v want|now k|now k d]; cbn [call_spec c_now c_k] in *.
      * exists (mkAns 0 None []), (sput sm k (mkSess (SValid v) now)). split; [apply fs_new; assumption|]. apply Fr. apply Hfin.
        replace (@nil (list Z)) with (if want then @nil (list Z) else []) by (destruct want; reflexivity). eapply ends_ext; [exact R|]. intro k'. symmetry. apply SS.
      * exfalso. eapply NG. reflexivity.
      * assert (St : storing (g_ttl g) sm now k []) by (right; auto).
        destruct R as [[Hm R]|[[Hm R]|[Hm [Hf R]]]].
        -- exists (mkAns 1 None []), (sput sm k (mkSess (SStoring [d]) now)). split; [apply (os_store _ _ _ _ _ _ _ _ _ []); assumption|]. apply Fr, Hfin. eapply ends_ext; [exact R|]. intro k'. symmetry. apply SS.
        -- exists refused, (sput sm k (mkSess (SStoring []) now)). split; [apply os_big; assumption|]. apply Fr, Hfin. exact R.
        -- exists refused, (sput sm k (mkSess SPoisoned now)). split; [apply (os_lost _ _ _ _ _ _ _ _ _ []); [assumption|assumption|apply NF; lia]|]. apply Fr, Hfin. eapply ends_ext; [exact R|]. intro k'. symmetry. apply SS.
  - (* a session *)
    assert (E : tstep g s Idle a = Ok (s1, PBody c o, ob1)).
    { cbn [tstep a a_call]. rewrite El. cbn [obind]. destruct (o =? 0) eqn:E0; [lia|reflexivity]. }
    destruct (adv _ _ _ _ _ _ _ _ G I B E) as [I1 B1]. pose proof (HA _ _ _ I1) as A1.
    destruct (At_obj _ _ _ _ _ _ A1 ltac:(lia)) as [b [Hb Hsm]]. rewrite sput_same in Hsm. assert (Hab : abs b = st) by congruence.
    pose proof (body_fin 5 g _ s1 c o _ b done G ltac:(lia) Hnow I1 B1 A1 Hb) as R. fold a in R. rewrite Hab in R. unfold body_result in R.
    assert (Fr : forall an sm', ends g (c_now c) (tr ++ ob1) (finish 11 g s1 (PBody c o) a) an sm' -> ends g (c_now c) tr (finish 12 g s Idle a) an sm') by (intros an sm' He; eapply ends_step; [exact E|discriminate|assumption|exact He]).
    destruct c as [now k v want|now k|now k d]; cbn [call_spec c_now c_k] in *.
    + destruct st as [l|v0|].
      * exists (mkAns 0 None (if want then l else [])), (sput sm k (mkSess (SValid v) now)). split; [apply fs_release; assumption|]. apply Fr. eapply ends_ext; [exact R|]. intro k'. symmetry. apply SS.
      * exists refused, (sput sm k (mkSess (SValid v0) now)). split; [apply fs_again; [assumption|discriminate]|]. apply Fr. exact R.
      * exists refused, (sput sm k (mkSess SPoisoned now)). split; [apply fs_again; [assumption|discriminate]|]. apply Fr. exact R.
    + destruct st as [l|v0|].
      * exists refused, (sput sm k (mkSess (SStoring l) now)). split; [apply gs_other; [assumption|discriminate]|]. apply Fr. exact R.
      * exists (mkAns 0 (Some v0) []), (sput sm k (mkSess (SValid v0) now)). split; [apply gs_valid; assumption|]. apply Fr. exact R.
      * exists refused, (sput sm k (mkSess SPoisoned now)). split; [apply gs_other; [assumption|discriminate]|]. apply Fr. exact R.
    + destruct st as [l|v0|].
      * assert (St : storing (g_ttl g) sm now k l) by (left; assumption). destruct R as [[Hm R]|[[Hm R]|[Hm [Hf R]]]].
        -- exists (mkAns 1 None []), (sput sm k (mkSess (SStoring (d :: l)) now)). split; [apply os_store; assumption|]. apply Fr. eapply ends_ext; [exact R|]. intro k'. symmetry. apply SS.
        -- exists refused, (sput sm k (mkSess (SStoring l) now)). split; [apply os_big; assumption|]. apply Fr. exact R.
        -- exists refused, (sput sm k (mkSess SPoisoned now)). split; [apply (os_lost _ _ _ _ _ _ _ _ _ l); [assumption|assumption|apply NF; lia]|]. apply Fr. eapply ends_ext; [exact R|]. intro k'. symmetry. apply SS.
      * exists (mkAns 0 (Some v0) []), (if done then sdel sm k else sput sm k (mkSess (SValid v0) now)). split; [apply os_valid; assumption|]. apply Fr.
        destruct done; [|exact R]. eapply ends_ext; [exact R|]. intro k'. symmetry. apply DS.
      * exists refused, (sput sm k (mkSess SPoisoned now)). split; [apply os_poisoned; assumption|]. apply Fr. exact R.
Qed.

Lemma calls_ok : forall g l tr s sm t0, conf_seq g -> 0 <= g_ttl g < two64 -> 0 <= t0 -> calls_clock t0 l -> Inv g tr s [Idle] [] -> Bk g s -> Link g t0 s sm ->
  exists ans s' sm', sessions g s sm l ans s' sm'.
Proof.
  induction l as [|[c done] l IH]; intros tr s sm t0 Gs Ht Ht0 Hc I B L; [exists [], s, sm; constructor|].
  destruct Hc as [Hc1 Hc2].
  assert (Hn : 0 <= c_now c < two64) by lia. pose proof (Link_later g t0 (c_now c) s sm L (proj1 Hc1)) as L0.
  destruct (call_ok g tr s sm c done Gs Ht Hn I B L0) as [an [sm1 [Sp [s1 [ob [E [I1 [B1 [L1 [R1 R2]]]]]]]]]].
  destruct (IH _ _ _ _ Gs Ht (proj1 Hn) Hc2 I1 B1 L1) as [ans [s' [sm' Hs]]].
  exists (an :: ans), s', sm'. econstructor; eauto.
Qed.

Lemma sessions_ok : forall g l, conf_seq g -> calls_clock 0 l -> exists ans s' sm', sessions g (fragTableCreate g) sempty l ans s' sm'.
Proof.
  intros g l Gs Hc. destruct (start_ok g 1 (proj1 Gs)) as [I B]. cbn [start w_sys w_pcs repeat] in *.
  assert (Ht : 0 <= g_ttl g < two64).
  { unfold g_ttl, u32. pose proof (Z.mod_pos_bound (g_millis g * 1000000) two32 ltac:(reflexivity)). unfold two64, two32 in *. lia. }
  apply (calls_ok g l [] _ sempty 0 Gs Ht ltac:(lia) Hc I B). destruct Gs as [[G1 _] _]. exists empty. cbn [fragTableCreate s_ct].
  split; [apply create_inv; lia|]. split; [apply create_rel|]. split; [intros k e [H _]; discriminate|intros k x H; discriminate].
Qed.

(** ** Consequences *)
Lemma sessions_inv : forall g s m c done r ans s2 m2, sessions g s m ((c, done) :: r) ans s2 m2 ->
  exists ob s1 an m1 ans', ans = an :: ans' /\ call_op g s c done = Ok (s1, ob) /\ rc_of ob = [(an_rc an, an_val an)] /\ handed_of ob = an_back an /\
    call_spec (no_bucket g s) (no_frag g s) (g_ttl g) (g_mtu g) m c done an m1 /\ sessions g s1 m1 r ans' s2 m2.
Proof. intros g s m c done r ans s2 m2 H. inversion H; subst. do 5 eexists. split; [reflexivity|]. eauto 6. Qed.

Lemma sessions_app : forall g l1 l2 s m ans s' m', sessions g s m (l1 ++ l2) ans s' m' ->
  exists a1 a2 s1 m1, ans = a1 ++ a2 /\ length a1 = length l1 /\ sessions g s m l1 a1 s1 m1 /\ sessions g s1 m1 l2 a2 s' m'.
Proof.
  induction l1 as [|[c d] l1 IH]; intros l2 s m ans s' m' H; [exists [], ans, s, m; repeat split; auto; constructor|].
  cbn [app] in H. destruct (sessions_inv _ _ _ _ _ _ _ _ _ H) as [ob [s1 [an [m1 [ans' [-> [R1 [R2 [R3 [R4 Hs]]]]]]]]]]. destruct (IH _ _ _ _ _ _ Hs) as [a1 [a2 [s2 [m2 [-> [Hl [H1 H2]]]]]]].
  exists (an :: a1), a2, s2, m2. split; [reflexivity|]. split; [cbn; lia|]. split; [econstructor; eauto|assumption].
Qed.

Lemma steered_ok : forall g k v l t0 s m ans s' m', sessions g s m l ans s' m' -> m k = Some (mkSess (SValid v) t0) -> steered (g_ttl g) k v t0 l ans.
Proof.
  intros g k v. induction l as [|[c d] l IH]; intros t0 s m ans s' m' H Hm; [exact I|]. destruct (sessions_inv _ _ _ _ _ _ _ _ _ H) as [ob [s1 [an [m1 [ans' [-> [R1 [R2 [R3 [H7 Hs]]]]]]]]]]. cbn [steered].
  destruct (list_eq_dec Z.eq_dec (c_k c) k) as [Hk|Hk].
  - intro Hw. assert (Cur : current (g_ttl g) m (c_now c) k = Some (SValid v)).
    { unfold current. rewrite Hm. cbn [ss_last ss]. destruct (c_now c - t0 <=? g_ttl g) eqn:E; [reflexivity|lia]. }
    destruct c as [now k0 v0 w|now k0|now k0 dd]; cbn [c_k c_now call_spec expected] in *; subst k0.
    + inversion H7; subst; try congruence. assert (st = SValid v) by congruence. subst st. split; [reflexivity|]. intros _. eapply IH; [eassumption|]. apply sput_same.
    + inversion H7; subst; try congruence. assert (v0 = v) by congruence. subst v0. split; [reflexivity|]. intros _. eapply IH; [eassumption|]. apply sput_same.
    + inversion H7; subst; try congruence; try (unfold storing in *; intuition congruence). assert (v0 = v) by congruence. subst v0. split; [reflexivity|]. intros ->. eapply IH; [eassumption|]. apply sput_same.
  - eapply IH; [eassumption|].
    destruct c as [now k0 v0 w|now k0|now k0 dd]; cbn [c_k c_now call_spec] in *; inversion H7; subst; rewrite ?sput_other by congruence; try assumption.
    destruct d; [rewrite sdel_other by congruence|rewrite sput_other by congruence]; assumption.
Qed.

Lemma first_steers : forall g l1 now k v want d l2 s m ans s' m', sessions g s m (l1 ++ (CFirst now k v want, d) :: l2) ans s' m' ->
  exists a1 an a2, ans = a1 ++ an :: a2 /\ length a1 = length l1 /\ (an_rc an = 0 -> steered (g_ttl g) k v now l2 a2).
Proof.
  intros g l1 now k v want d l2 s m ans s' m' H. destruct (sessions_app _ _ _ _ _ _ _ _ H) as [a1 [a2 [s1 [m1 [-> [Hl [_ H2]]]]]]].
  destruct (sessions_inv _ _ _ _ _ _ _ _ _ H2) as [ob [s2 [an [m2 [ans0 [-> [R1 [R2 [R3 [H9 Hs]]]]]]]]]]. exists a1, an, ans0. split; [reflexivity|]. split; [assumption|]. intro Hz.
  eapply steered_ok; [eassumption|]. cbn [call_spec] in H9. inversion H9; subst; cbn in Hz; try discriminate; apply sput_same.
Qed.

(** ** Executions given by their labels *)
Fixpoint wrun (g : conf) (w : world) (tr : list obs) (ls : list label) : option (list obs * world) :=
  match ls with
  | [] => Some (tr, w)
  | l :: r => match wstep g w l with Some (Ok (w', ob)) => wrun g w' (tr ++ ob) r | _ => None end
  end.
Lemma wrun_exec : forall g ls w0 tr w tr' w', exec g w0 tr w -> wrun g w tr ls = Some (tr', w') -> exec g w0 tr' w'.
Proof.
  intros g. induction ls as [|l ls IH]; intros w0 tr w tr' w' E H; cbn [wrun] in H; [injection H as <- <-; assumption|].
  destruct (wstep g w l) as [[[w1 ob]| | |]|] eqn:Ew; try discriminate. eapply IH; [|exact H]. econstructor; eauto.
Qed.

Definition all_accepted (k : ckey) (v : Z) (tr : list obs) : Prop := forall v', In (Accepted k v') tr -> v' = v.
Lemma one_value : forall g n tr w k v v', conf_ok g -> exec g (start g n) tr w -> all_accepted k v tr -> In (Returned k 0 (Some v')) tr -> v' = v.
Proof.
  intros g n tr w k v v' G E A H. apply in_split in H. destruct H as [t1 [t2 ->]]. apply A. apply in_or_app. left.
  eapply returned_accepted; eauto.
Qed.

(** ** C23 *)
Lemma ttl_small : forall g, 0 <= g_millis g <= 4294 -> g_ttl g = g_millis g * 1000000.
Proof. intros g H. unfold g_ttl, u32. apply Z.mod_small. unfold two32. lia. Qed.
