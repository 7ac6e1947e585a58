(** Proofs about populate as a function, the active set and the store traces. *)
From Coq Require Import Znumtheory Permutation.
From Verif Require Import Base Lists Prime_Model Prime_Proofs Maglev_Model Maglev_Spec Maglev_Proofs
  MaglevInit_Proofs Config_Model Config_Spec.

(** ** Populate depends on the lookup array only through its length, and on the
    active array only through which entries are active (C04). *)

Lemma clear_loop_same : forall k i l1 l2 tr,
  zlen l1 = zlen l2 -> 0 <= i -> i + Z.of_nat k = zlen l1 ->
  (forall j, 0 <= j < i -> znth l1 j = znth l2 j) ->
  clear_loop k i l1 tr = clear_loop k i l2 tr.
Proof.
  induction k as [|k IH]; intros i l1 l2 tr Hl Hi Hk He; cbn [clear_loop].
  - f_equal. f_equal. apply znth_ext; [assumption|]. intros j Hj. apply He. lia.
  - rewrite !aset_in_range by lia. cbn [obind]. apply IH; try (rewrite !zlen_zupd); try lia.
    intros j Hj. destruct (Z.eq_dec i j).
    + subst. rewrite !znth_zupd_eq by lia. reflexivity.
    + rewrite !znth_zupd_neq by lia. apply He. lia.
Qed.

Lemma populate_lookup_indep : forall isact M N l1 l2 perm active,
  0 <= M -> zlen l1 = M -> zlen l2 = M ->
  populate_gen isact M N l1 perm active = populate_gen isact M N l2 perm active.
Proof.
  intros. unfold populate_gen. rewrite (clear_loop_same _ _ l1 l2); try lia; auto; intros; lia.
Qed.

Lemma map_aget : forall (isact : Z -> bool) a1 a2 i, map isact a1 = map isact a2 ->
  (aget a1 i = UB /\ aget a2 i = UB) \/
  (exists x y, aget a1 i = Ok x /\ aget a2 i = Ok y /\ isact x = isact y).
Proof.
  intros isact a1 a2 i H.
  assert (E : znth (map isact a1) i = znth (map isact a2) i) by (rewrite H; reflexivity).
  rewrite !znth_map in E. unfold aget.
  destruct (znth a1 i) as [x|], (znth a2 i) as [y|]; try discriminate; [right|left; auto].
  exists x, y. injection E as E. auto.
Qed.

Lemma count_active_same : forall isact a1 a2, map isact a1 = map isact a2 ->
  forall k i n, count_active isact a1 k i n = count_active isact a2 k i n.
Proof.
  intros isact a1 a2 H. induction k as [|k IH]; intros i n; cbn [count_active]; [reflexivity|].
  destruct (map_aget isact a1 a2 i H) as [[E1 E2]|[x [y [E1 [E2 E3]]]]]; rewrite E1, E2; cbn [obind]; auto.
  rewrite E3. apply IH.
Qed.

Lemma round_same : forall isact M perm a1 a2, map isact a1 = map isact a2 ->
  forall k i st, round isact M perm a1 k i st = round isact M perm a2 k i st.
Proof.
  intros isact M perm a1 a2 H. induction k as [|k IH]; intros i st; cbn [round]; [reflexivity|].
  destruct (map_aget isact a1 a2 i H) as [[E1 E2]|[x [y [E1 [E2 E3]]]]]; rewrite E1, E2; cbn [obind]; auto.
  rewrite E3. destruct (isact y); cbn [negb]; [|apply IH].
  destruct (aget perm i) as [row| | |]; cbn [obind]; auto.
  destruct (aget (p_next st) i) as [nx| | |]; cbn [obind]; auto.
  destruct (find_slot (length row) (p_lookup st) row nx) as [[c nx']| | |]; cbn [obind]; auto.
  destruct (aset (p_lookup st) c i) as [l'| | |]; cbn [obind]; auto.
  destruct (aset (p_next st) i (u32 (nx' + 1))) as [next'| | |]; cbn [obind]; auto.
  cbn zeta. destruct (p_n _ =? M); auto.
Qed.

Lemma rounds_same : forall isact M perm a1 a2, map isact a1 = map isact a2 ->
  forall N fuel st, rounds isact M perm a1 N fuel st = rounds isact M perm a2 N fuel st.
Proof.
  intros isact M perm a1 a2 H N. induction fuel as [|fuel IH]; intros st; cbn [rounds]; [reflexivity|].
  rewrite (round_same _ _ _ _ _ H). destruct (round isact M perm a2 N 0 st) as [[st' fin]| | |]; cbn [obind]; auto.
  destruct fin; auto.
Qed.

Lemma populate_active_indep : forall isact M N l perm a1 a2,
  map isact a1 = map isact a2 ->
  populate_gen isact M N l perm a1 = populate_gen isact M N l perm a2.
Proof.
  intros isact M N l perm a1 a2 H. unfold populate_gen.
  destruct (clear_loop (Z.to_nat M) 0 l []) as [[l0 tr0]| | |]; cbn [obind]; auto.
  rewrite (count_active_same _ _ _ H). destruct (count_active isact a2 (Z.to_nat N) 0 0) as [na| | |]; cbn [obind]; auto.
  destruct (na =? 0); auto. rewrite (rounds_same _ _ _ _ _ H). reflexivity.
Qed.

(** ** Well-formed states *)
Record wf (m : mag) : Prop := mkWf {
  wf_M : 0 < mM m < two32;
  wf_N : 0 <= mN m < two32;
  wf_lookup : zlen (mlookup m) = mM m;
  wf_perm : zlen (mperm m) = mN m;
  wf_active : zlen (mactive m) = mN m
}.

Definition good_rows (m : mag) : Prop :=
  forall row, In row (mperm m) -> good_row (mM m) row.

(** What holds of every table, whatever its size. *)
Definition short_rows (m : mag) : Prop :=
  forall row, In row (mperm m) -> zlen row < two32.

Lemma good_short : forall m, wf m -> good_rows m -> short_rows m.
Proof. intros m Hw Hg row Hin. destruct (Hg row Hin) as [E _]. rewrite E. apply (wf_M _ Hw). Qed.

Lemma short_rows_eq : forall m m', short_rows m -> mperm m' = mperm m -> short_rows m'.
Proof. intros m m' H E2 row Hin. apply H. rewrite <- E2. assumption. Qed.

(** The lookup table is the one computed from the active array. *)
Definition synced (m : mag) : Prop :=
  exists tr, populate_gen dyn_active (mM m) (mN m) (mlookup m) (mperm m) (mactive m) = Ok (mlookup m, tr).

(** Every successful populate leaves arrays of the same size. *)
Lemma clear_loop_zlen : forall k i l tr l' tr',
  clear_loop k i l tr = Ok (l', tr') -> zlen l' = zlen l.
Proof.
  induction k as [|k IH]; intros i l tr l' tr' H; cbn [clear_loop] in H.
  - injection H as <- <-. reflexivity.
  - destruct (aset l i (-1)) as [l1| | |] eqn:E; try discriminate. cbn [obind] in H.
    apply IH in H. apply aset_ok in E. destruct E as [E1 E2]. subst. rewrite H, zlen_zupd. reflexivity.
Qed.

Lemma round_zlen : forall isact M perm active k i st st' b,
  round isact M perm active k i st = Ok (st', b) -> zlen (p_lookup st') = zlen (p_lookup st).
Proof.
  induction k as [|k IH]; intros i st st' b H; cbn [round] in H.
  - injection H as <- _. reflexivity.
  - destruct (aget active i) as [a| | |]; try discriminate. cbn [obind] in H.
    destruct (isact a); cbn [negb] in H; [|eapply IH; eauto].
    destruct (aget perm i) as [row| | |]; try discriminate; cbn [obind] in H.
    destruct (aget (p_next st) i) as [nx| | |]; try discriminate; cbn [obind] in H.
    destruct (find_slot (length row) (p_lookup st) row nx) as [[c nx']| | |]; try discriminate; cbn [obind] in H.
    destruct (aset (p_lookup st) c i) as [l'| | |] eqn:E; try discriminate; cbn [obind] in H.
    destruct (aset (p_next st) i (u32 (nx' + 1))) as [next'| | |]; try discriminate; cbn [obind] in H.
    assert (El : zlen l' = zlen (p_lookup st)).
    { apply aset_ok in E. destruct E as [E1 E2]. subst. apply zlen_zupd. }
    cbn zeta in H. destruct (p_n _ =? M).
    + injection H as <- _. cbn [p_lookup]. assumption.
    + apply IH in H. cbn [p_lookup] in H. congruence.
Qed.

Lemma rounds_zlen : forall isact M perm active N fuel st st',
  rounds isact M perm active N fuel st = Ok st' -> zlen (p_lookup st') = zlen (p_lookup st).
Proof.
  induction fuel as [|fuel IH]; intros st st' H; cbn [rounds] in H; [discriminate|].
  destruct (round isact M perm active N 0 st) as [[st1 fin]| | |] eqn:E; try discriminate; cbn [obind] in H.
  apply round_zlen in E. destruct fin.
  - injection H as <-. assumption.
  - apply IH in H. congruence.
Qed.

Lemma populate_zlen : forall isact M N l perm active l' tr,
  populate_gen isact M N l perm active = Ok (l', tr) -> zlen l' = zlen l.
Proof.
  intros isact M N l perm active l' tr H. unfold populate_gen in H.
  destruct (clear_loop (Z.to_nat M) 0 l []) as [[l0 tr0]| | |] eqn:E; try discriminate; cbn [obind] in H.
  apply clear_loop_zlen in E.
  destruct (count_active isact active (Z.to_nat N) 0 0) as [na| | |]; try discriminate; cbn [obind] in H.
  destruct (na =? 0).
  - injection H as <- _. assumption.
  - match type of H with obind ?e _ = _ => destruct e as [st| | |] eqn:Er; try discriminate end.
    cbn [obind] in H. injection H as <- _. apply rounds_zlen in Er. cbn [p_lookup] in Er. congruence.
Qed.

Lemma finish_cases : forall m ch tr m' tr',
  wf m -> finish m ch tr = Ok (m', tr') ->
  wf m' /\ mM m' = mM m /\ mN m' = mN m /\ mperm m' = mperm m /\ mactive m' = mactive m /\
  (if ch then synced m' else m' = m).
Proof.
  intros m ch tr m' tr' Hwf H. destruct Hwf as [H1 H2 H3 H4 H5].
  unfold finish, magDataDyn_populate in H. destruct ch.
  - destruct (populate_gen dyn_active (mM m) (mN m) (mlookup m) (mperm m) (mactive m)) as [[l trp]| | |] eqn:E;
      try discriminate. cbn [obind] in H. injection H as <- <-. cbn [mM mN mperm mactive mlookup].
    assert (El := populate_zlen _ _ _ _ _ _ _ _ E).
    split; [constructor; cbn [mM mN mperm mactive mlookup]; auto; lia|].
    repeat (split; [reflexivity|]). exists trp. cbn [mM mN mperm mactive mlookup].
    rewrite <- E. apply populate_lookup_indep; lia.
  - injection H as <- _. repeat split; auto; lia.
Qed.

Lemma aset_zlen : forall A (l l' : list A) i v, aset l i v = Ok l' -> zlen l' = zlen l.
Proof. intros A l l' i v H. apply aset_ok in H. destruct H as [H1 H2]. subst. apply zlen_zupd. Qed.

Lemma activate_args_zlen : forall N fws active ch a ch' tr,
  activate_args N active fws ch = Ok (a, ch', tr) ->
  zlen a = zlen active /\ (ch' = false -> a = active /\ tr = [] /\ ch = false).
Proof.
  induction fws as [|fw rest IH]; intros active ch a ch' tr H; cbn [activate_args] in H.
  - injection H as <- <- <-. auto.
  - destruct (scan active fw (Z.to_nat N) 0 (-1)) as [[found fe]| | |]; try discriminate; cbn [obind] in H.
    destruct (negb found && (0 <=? fe)).
    + destruct (aset active fe fw) as [a1| | |] eqn:E; try discriminate; cbn [obind] in H.
      destruct (activate_args N a1 rest true) as [[[a2 ch2] tr2]| | |] eqn:E2; try discriminate; cbn [obind] in H.
      injection H as <- <- <-. apply IH in E2. destruct E2 as [E2 E3]. apply aset_zlen in E.
      split; [congruence|]. intros Hc. apply E3 in Hc. destruct Hc as [_ [_ Hc]]. discriminate.
    + apply IH in H. assumption.
Qed.

Lemma deactivate_args_zlen : forall N fws active ch a ch' tr,
  deactivate_args N active fws ch = Ok (a, ch', tr) ->
  zlen a = zlen active /\ (ch' = false -> a = active /\ tr = [] /\ ch = false).
Proof.
  induction fws as [|fw rest IH]; intros active ch a ch' tr H; cbn [deactivate_args] in H.
  - injection H as <- <- <-. auto.
  - destruct (scan_eq active fw (Z.to_nat N) 0) as [i| | |]; try discriminate; cbn [obind] in H.
    destruct (0 <=? i).
    + destruct (aset active i (-1)) as [a1| | |] eqn:E; try discriminate; cbn [obind] in H.
      destruct (deactivate_args N a1 rest true) as [[[a2 ch2] tr2]| | |] eqn:E2; try discriminate; cbn [obind] in H.
      injection H as <- <- <-. apply IH in E2. destruct E2 as [E2 E3]. apply aset_zlen in E.
      split; [congruence|]. intros Hc. apply E3 in Hc. destruct Hc as [_ [_ Hc]]. discriminate.
    + apply IH in H. assumption.
Qed.

Lemma wf_with_active : forall m a, wf m -> zlen a = mN m -> wf (with_active m a).
Proof. intros m a [H1 H2 H3 H4 H5] Ha. constructor; cbn; auto. Qed.

Lemma with_active_same : forall m, with_active m (mactive m) = m.
Proof. destruct m; reflexivity. Qed.

(** Every command preserves well-formedness and leaves table and active array in
    agreement. *)
Lemma run_cmd_wf_gen : forall m c m' tr,
  wf m -> run_cmd m c = Ok (m', tr) ->
  wf m' /\ (synced m \/ tr <> [] -> synced m') /\ mM m' = mM m /\ mN m' = mN m /\ mperm m' = mperm m.
Proof.
  intros m c m' tr Hwf H. destruct c as [fws|i fw|fws|i]; cbn [run_cmd] in H.
  - destruct (activate_args (mN m) (mactive m) fws false) as [[[a ch] tra]| | |] eqn:E; try discriminate; cbn [obind] in H.
    apply activate_args_zlen in E. destruct E as [E1 E2].
    pose proof H as H0.
    apply finish_cases in H; [|apply wf_with_active; [assumption|rewrite E1; apply wf_active; assumption]].
    destruct H as [F1 [F2 [F3 [F4 [F5 F6]]]]]. cbn in F2, F3, F4.
    destruct ch; [tauto|]. destruct (E2 eq_refl) as [E3 [E4 _]]. subst a tra.
    rewrite with_active_same in F6. subst m'.
    assert (Htr : tr = []) by (rewrite with_active_same in H0; cbn in H0; congruence). tauto.
  - destruct (u32 i >=? mN m); [discriminate|].
    destruct (aget (mactive m) i) as [a| | |]; try discriminate; cbn [obind] in H.
    destruct (a =? fw); [injection H as <- <-; tauto|].
    destruct (aset (mactive m) i fw) as [a1| | |] eqn:E; try discriminate; cbn [obind] in H.
    apply aset_zlen in E.
    apply finish_cases in H; [|apply wf_with_active; [assumption|rewrite E; apply wf_active; assumption]].
    cbn in H. tauto.
  - destruct (deactivate_args (mN m) (mactive m) fws false) as [[[a ch] tra]| | |] eqn:E; try discriminate; cbn [obind] in H.
    apply deactivate_args_zlen in E. destruct E as [E1 E2].
    pose proof H as H0.
    apply finish_cases in H; [|apply wf_with_active; [assumption|rewrite E1; apply wf_active; assumption]].
    destruct H as [F1 [F2 [F3 [F4 [F5 F6]]]]]. cbn in F2, F3, F4.
    destruct ch; [tauto|]. destruct (E2 eq_refl) as [E3 [E4 _]]. subst a tra.
    rewrite with_active_same in F6. subst m'.
    assert (Htr : tr = []) by (rewrite with_active_same in H0; cbn in H0; congruence). tauto.
  - destruct (u32 i >=? mN m); [discriminate|].
    destruct (aget (mactive m) i) as [a| | |]; try discriminate; cbn [obind] in H.
    destruct (0 <=? a); [|injection H as <- <-; tauto].
    destruct (aset (mactive m) i (-1)) as [a1| | |] eqn:E; try discriminate; cbn [obind] in H.
    apply aset_zlen in E.
    apply finish_cases in H; [|apply wf_with_active; [assumption|rewrite E; apply wf_active; assumption]].
    cbn in H. tauto.
Qed.

Lemma run_cmd_wf : forall m c m' tr,
  wf m -> synced m -> run_cmd m c = Ok (m', tr) ->
  wf m' /\ synced m' /\ mM m' = mM m /\ mN m' = mN m /\ mperm m' = mperm m.
Proof. intros m c m' tr Hwf Hs H. apply run_cmd_wf_gen in H; tauto. Qed.

Lemma run_hist_wf : forall cs m m',
  wf m -> synced m -> run_hist m cs = Ok m' ->
  wf m' /\ synced m' /\ mM m' = mM m /\ mN m' = mN m /\ mperm m' = mperm m.
Proof.
  induction cs as [|c cs IH]; intros m m' Hwf Hs H; cbn [run_hist] in H.
  - injection H as <-. auto.
  - destruct (run_cmd m c) as [[m1 tr]| | |] eqn:E; try discriminate.
    + apply run_cmd_wf in E; auto. destruct E as [E1 [E2 [E3 [E4 E5]]]].
      apply IH in H; auto. destruct H as [G1 [G2 [G3 [G4 G5]]]].
      repeat (split; [congruence || assumption|]). congruence.
    + apply IH in H; auto.
Qed.

Lemma cmdInit_wf : forall m n rand mg,
  0 <= n < two32 -> 0 <= m < two32 -> cmdInit m n rand = Ok mg ->
  wf mg /\ synced mg /\ prime (mM mg) /\ 3 <= mM mg <= 994009 /\ mN mg = n /\ n <= mM mg /\
  mperm mg = make_rows (mM mg) n rand /\ mactive mg = repeat (-1) (Z.to_nat n) /\
  primeBelow (Z.max m 3) = Ok (mM mg).
Proof.
  intros m n rand mg Hn Hm H.
  destruct (primeBelow_correct (Z.max m 3)) as [p [Hp1 [Hp2 [Hp3 Hp4]]]]; [lia|].
  assert (Hle : n <= p).
  { unfold cmdInit in H.
    assert (He : (if m <? 3 then Ok 3 else primeBelow m) = Ok p).
    { destruct (m <? 3) eqn:E.
      - rewrite Z.max_r in Hp1 by lia. rewrite <- Hp1. vm_compute. reflexivity.
      - rewrite Z.max_l in Hp1 by lia. assumption. }
    rewrite He in H. cbn [obind] in H. destruct (n >? p) eqn:E; [discriminate|]. lia. }
  assert (Hfit : 24 + 4 * (p * n) + 4 * (p + n) < two32).
  { assert (Hp3' : 3 <= p) by (apply Hp4; [apply prime_3|lia]).
    unfold cmdInit in H.
    assert (He : (if m <? 3 then Ok 3 else primeBelow m) = Ok p).
    { destruct (m <? 3) eqn:E.
      - rewrite Z.max_r in Hp1 by lia. rewrite <- Hp1. vm_compute. reflexivity.
      - rewrite Z.max_l in Hp1 by lia. assumption. }
    rewrite He in H. cbn [obind] in H. destruct (n >? p) eqn:E; [discriminate|].
    assert (Hpp : primeBelow p = Ok p) by (apply primeBelow_prime; [assumption|lia]).
    assert (Hmax : (if p <? 3 then 3 else p) = p) by (destruct (p <? 3) eqn:E3; lia).
    unfold magDataDyn_init, magDataDyn_len in H. rewrite Hmax, Hpp in H. cbn [obind] in H.
    rewrite Hmax, Hpp in H. cbn [obind] in H. rewrite Z.ltb_irrefl in H.
    destruct (layout_fits p n (len_formula p n)) eqn:El; [|discriminate].
    apply layout_fits_iff in El; lia. }
  destruct (cmdInit_ok m n rand p Hn Hm Hp1 Hle Hfit) as [mg' [G1 [G2 [G3 [G4 [G5 [G6 [G7 G8]]]]]]]].
  assert (mg' = mg) by congruence. subst mg'.
  split; [|split].
  - constructor.
    + unfold two32. lia.
    + lia.
    + rewrite G8, zlen_repeat. lia.
    + rewrite G6, make_rows_zlen; lia.
    + rewrite G7, zlen_repeat. lia.
  - unfold synced. rewrite G4, G5, G6, G7, G8.
    destruct (populate_ok dyn_active p n (make_rows p n rand) (repeat (-1) (Z.to_nat n)))
      with (lookup := repeat (-1) (Z.to_nat p)) as [l [tr [H1 [H2 [H3 [H4 [H5 H6]]]]]]].
    + unfold two32. lia.
    + assumption.
    + apply make_rows_zlen. lia.
    + rewrite zlen_repeat. lia.
    + intros i row [a [Ha1 Ha2]]. apply znth_In, repeat_spec in Ha1. subst. discriminate.
    + rewrite zlen_repeat. lia.
    + exists tr. rewrite H1. f_equal. f_equal.
      apply znth_ext; [rewrite zlen_repeat; lia|].
      intros i Hi. rewrite znth_repeat by lia.
      destruct (znth_in_range _ l i) as [v Hv]; [assumption|]. rewrite Hv. f_equal.
      apply H5; [|eapply znth_In; eauto].
      intros j [a [Ha1 Ha2]]. apply znth_In, repeat_spec in Ha1. subst. discriminate.
  - rewrite G4, G5. repeat (split; [assumption || reflexivity|]). assumption.
Qed.

Lemma cmdInit_good_rows : forall m n rand mg,
  0 <= n < two32 -> 0 <= m < two32 -> cmdInit m n rand = Ok mg ->
  mM mg <= 65536 -> (forall k, 0 <= rand k) ->
  forall row, In row (mperm mg) -> Permutation row (slots (mM mg)).
Proof.
  intros m n rand mg Hn Hm H Hle Hr row Hin.
  apply cmdInit_wf in H; auto. destruct H as [_ [_ [Hp [Hb [_ [_ [Hrows _]]]]]]].
  rewrite Hrows in Hin. apply In_znth in Hin. destruct Hin as [i Hi].
  apply make_rows_nth in Hi. destruct Hi as [_ ->].
  apply make_row_permutation; auto; lia.
Qed.

(** ** Facts about a synced table with good rows *)
Lemma is_active_act : forall m i, is_active m i <-> act dyn_active (mactive m) i.
Proof.
  intros m i. unfold is_active, act, dyn_active. split; intros [a [H1 H2]]; exists a; split; auto; lia.
Qed.

Lemma synced_facts : forall m, wf m -> short_rows m -> synced m ->
  ((forall j, ~ is_active m j) -> forall v, In v (mlookup m) -> v = -1) /\
  ((exists j, is_active m j) -> (forall v, In v (mlookup m) -> is_active m v) /\
     exists r, forall j, is_active m j -> r <= owned (mlookup m) j <= r + 1).
Proof.
  intros m [H1 H2 H3 H4 H5] Hg [tr Hs].
  destruct (populate_weak dyn_active (mM m) (mN m) (mperm m) (mactive m) H1 H2 H4 H5 Hg (mlookup m) H3)
    as [[_ Hub]|[l [tr' [P1 [P2 [P3 [P4 [P5 P6]]]]]]]]; [congruence|].
  assert (l = mlookup m) by congruence. clear P4. subst l. split.
  - intros Hno. apply P5. intros j Hj. apply (Hno j). apply is_active_act. assumption.
  - intros [j Hj]. destruct P6 as [P6 [[r P7] _]]; [exists j; apply is_active_act; assumption|].
    split; [intros v Hv; apply is_active_act; auto|].
    exists r. intros k Hk. apply P7. apply is_active_act. assumption.
Qed.

(** All commands succeed (no UB, no Fuel) in a good state. *)
Lemma finish_total : forall m ch tr, wf m -> good_rows m -> exists r, finish m ch tr = Ok r.
Proof.
  intros m ch tr [H1 H2 H3 H4 H5] Hg. unfold finish, magDataDyn_populate. destruct ch; [|eexists; reflexivity].
  destruct (populate_ok dyn_active (mM m) (mN m) (mperm m) (mactive m))
    with (lookup := mlookup m) as [l [tr' [P1 _]]]; auto.
  { intros i row _ Hrow. apply Hg. eapply znth_In; eauto. }
  rewrite P1. cbn [obind]. eexists. reflexivity.
Qed.

(** ** The scans *)
Lemma scan_spec : forall active fw k i fe,
  0 <= i -> i + Z.of_nat k = zlen active ->
  (forall j, 0 <= j < i -> znth active j <> Some fw) ->
  (fe = -1 /\ (forall j v, 0 <= j < i -> znth active j = Some v -> 0 <= v) \/
   0 <= fe < i /\ exists v, znth active fe = Some v /\ v < 0) ->
  exists b fe', scan active fw k i fe = Ok (b, fe') /\
    (b = true <-> In fw active) /\
    (b = false ->
       (fe' = -1 /\ (forall v, In v active -> 0 <= v)) \/
       (0 <= fe' < zlen active /\ exists v, znth active fe' = Some v /\ v < 0)).
Proof.
  induction k as [|k IH]; intros i fe Hi Hk Hno Hfe; cbn [scan].
  - exists false, fe. split; [reflexivity|]. split.
    + split; [discriminate|]. intro Hin. apply In_znth in Hin. destruct Hin as [j Hj].
      assert (Hr := znth_some_range _ _ _ _ Hj). exfalso. apply (Hno j); [lia|assumption].
    + intros _. destruct Hfe as [[He1 He2]|[He1 He2]]; [left|right; split; [lia|assumption]].
      split; [assumption|]. intros v Hv. apply In_znth in Hv. destruct Hv as [j Hj].
      assert (Hr := znth_some_range _ _ _ _ Hj). apply (He2 j); [lia|assumption].
  - destruct (aget_in_range _ active i) as [a [Ha1 Ha2]]; [lia|]. rewrite Ha1. cbn [obind].
    cbn zeta. destruct (a =? fw) eqn:Ea.
    + eexists true, _. split; [reflexivity|]. split; [|discriminate].
      split; [|reflexivity]. intros _. assert (a = fw) by lia. subst. eapply znth_In; eauto.
    + apply IH; try lia.
      * intros j Hj. destruct (Z.eq_dec j i); [subst; rewrite Ha2; intro Hx; injection Hx as Hx; lia|apply Hno; lia].
      * destruct Hfe as [[He1 He2]|[He1 He2]].
        -- subst fe. cbn [Z.ltb]. change (-1 <? 0) with true. cbn [andb]. destruct (a <? 0) eqn:El.
           ++ right. split; [lia|]. exists a. split; [assumption|lia].
           ++ left. split; [reflexivity|]. intros j v Hj Hv. destruct (Z.eq_dec j i).
              ** subst. rewrite Ha2 in Hv. injection Hv as <-. lia.
              ** apply (He2 j); [lia|assumption].
        -- right. destruct (fe <? 0) eqn:Ef; [lia|]. cbn [andb]. split; [lia|assumption].
Qed.

Lemma scan_eq_spec : forall active fw k i,
  0 <= i -> i + Z.of_nat k = zlen active ->
  (forall j, 0 <= j < i -> znth active j <> Some fw) ->
  exists r, scan_eq active fw k i = Ok r /\
    ((r = -1 /\ ~ In fw active) \/ (0 <= r < zlen active /\ znth active r = Some fw)).
Proof.
  induction k as [|k IH]; intros i Hi Hk Hno; cbn [scan_eq].
  - exists (-1). split; [reflexivity|]. left. split; [reflexivity|]. intro Hin. apply In_znth in Hin.
    destruct Hin as [j Hj]. assert (Hr := znth_some_range _ _ _ _ Hj). apply (Hno j); [lia|assumption].
  - destruct (aget_in_range _ active i) as [a [Ha1 Ha2]]; [lia|]. rewrite Ha1. cbn [obind].
    destruct (a =? fw) eqn:Ea.
    + assert (a = fw) by lia. subst. exists i. split; [reflexivity|]. right. split; [lia|assumption].
    + apply IH; try lia. intros j Hj.
      destruct (Z.eq_dec j i); [subst; rewrite Ha2; intro Hx; injection Hx as Hx; lia|apply Hno; lia].
Qed.

(** ** Fwmarks in the active array, and the abstract set *)
Definition fws_of (active : list Z) : list Z := filter dyn_active active.

Lemma nth_error_split_upd : forall A (l : list A) n v w, nth_error l n = Some v ->
  exists l1 l2, l = l1 ++ v :: l2 /\ upd l n w = l1 ++ w :: l2.
Proof.
  induction l as [|a l IH]; intros n v w H; [destruct n; discriminate|].
  destruct n as [|n]; cbn in H.
  - injection H as <-. exists [], l. auto.
  - destruct (IH n v w H) as [l1 [l2 [E1 E2]]]. exists (a :: l1), l2. cbn. rewrite E1 at 1. rewrite E2. auto.
Qed.

Lemma znth_split_zupd : forall A (l : list A) i v w, znth l i = Some v ->
  exists l1 l2, l = l1 ++ v :: l2 /\ zupd l i w = l1 ++ w :: l2.
Proof.
  intros A l i v w H. unfold znth in H. unfold zupd. destruct (i <? 0) eqn:E; [discriminate|].
  apply nth_error_split_upd. assumption.
Qed.

Lemma fws_zupd_insert : forall active i v w, znth active i = Some v -> v < 0 -> 0 <= w ->
  Permutation (fws_of (zupd active i w)) (w :: fws_of active).
Proof.
  intros active i v w H Hv Hw. destruct (znth_split_zupd _ _ _ _ w H) as [l1 [l2 [E1 E2]]].
  rewrite E2, E1. unfold fws_of. rewrite !filter_app. cbn [filter].
  assert (D1 : dyn_active w = true) by (unfold dyn_active; lia).
  assert (D2 : dyn_active v = false) by (unfold dyn_active; lia).
  rewrite D1, D2. symmetry. apply Permutation_middle.
Qed.

Lemma fws_zupd_remove : forall active i v w, znth active i = Some v -> 0 <= v -> w < 0 ->
  Permutation (fws_of active) (v :: fws_of (zupd active i w)).
Proof.
  intros active i v w H Hv Hw. destruct (znth_split_zupd _ _ _ _ w H) as [l1 [l2 [E1 E2]]].
  rewrite E2, E1. unfold fws_of. rewrite !filter_app. cbn [filter].
  assert (D1 : dyn_active v = true) by (unfold dyn_active; lia).
  assert (D2 : dyn_active w = false) by (unfold dyn_active; lia).
  rewrite D1, D2. symmetry. apply Permutation_middle.
Qed.

Lemma fws_zupd_neg : forall active i v w, znth active i = Some v -> v < 0 -> w < 0 ->
  fws_of (zupd active i w) = fws_of active.
Proof.
  intros active i v w H Hv Hw. destruct (znth_split_zupd _ _ _ _ w H) as [l1 [l2 [E1 E2]]].
  rewrite E2, E1. unfold fws_of. rewrite !filter_app. cbn [filter].
  assert (D1 : dyn_active v = false) by (unfold dyn_active; lia).
  assert (D2 : dyn_active w = false) by (unfold dyn_active; lia).
  rewrite D1, D2. reflexivity.
Qed.

Lemma In_fws : forall active v, In v (fws_of active) <-> In v active /\ 0 <= v.
Proof. intros. unfold fws_of. rewrite filter_In. unfold dyn_active. intuition lia. Qed.

Definition represents (S active : list Z) : Prop := NoDup S /\ Permutation S (fws_of active).

Lemma rep_In : forall S active v, represents S active -> (In v S <-> In v active /\ 0 <= v).
Proof.
  intros S active v [_ H]. rewrite <- In_fws. split; apply Permutation_in; [|apply Permutation_sym]; assumption.
Qed.

Lemma existsb_eqb_In : forall S v, existsb (Z.eqb v) S = true <-> In v S.
Proof.
  intros. rewrite existsb_exists. split.
  - intros [x [H1 H2]]. assert (v = x) by lia. subst. assumption.
  - intro H. exists v. split; [assumption|lia].
Qed.

Lemma fws_full : forall active, (forall v, In v active -> 0 <= v) -> zlen (fws_of active) = zlen active.
Proof.
  intros active H. unfold fws_of. induction active as [|a l IH]; [reflexivity|]. cbn [filter].
  assert (D : dyn_active a = true) by (assert (0 <= a) by (apply H; left; reflexivity); unfold dyn_active; lia).
  rewrite D. unfold zlen in *. cbn [length]. rewrite !Nat2Z.inj_succ. rewrite IH; [reflexivity|].
  intros v Hv. apply H. right. assumption.
Qed.

Lemma zlen_perm : forall A (l l' : list A), Permutation l l' -> zlen l = zlen l'.
Proof. intros A l l' H. unfold zlen. rewrite (Permutation_length H). reflexivity. Qed.

Lemma activate_args_rep : forall fws S active ch,
  represents S active ->
  exists a ch' tr, activate_args (zlen active) active fws ch = Ok (a, ch', tr) /\
    zlen a = zlen active /\
    represents (fold_left (s_insert (zlen active)) fws S) a.
Proof.
  induction fws as [|fw rest IH]; intros S active ch Hr; cbn [activate_args fold_left].
  - eexists _, _, _. split; [reflexivity|]. split; [reflexivity|assumption].
  - destruct (scan_spec active fw (Z.to_nat (zlen active)) 0 (-1)) as [b [fe [E1 [E2 E3]]]].
    + lia.
    + pose proof (zlen_nonneg _ active). lia.
    + intros; lia.
    + left. split; [reflexivity|]. intros; lia.
    + rewrite E1. cbn [obind]. unfold s_insert at 2. destruct b; cbn [negb andb].
      * assert (Hin : In fw active) by (apply E2; reflexivity).
        assert (Hs : (if fw <? 0 then S else if existsb (Z.eqb fw) S then S else if zlen S <? zlen active then fw :: S else S) = S).
        { destruct (fw <? 0) eqn:Ef; [reflexivity|].
          assert (Hex : existsb (Z.eqb fw) S = true).
          { apply existsb_eqb_In. apply (rep_In _ _ _ Hr). split; [assumption|lia]. }
          rewrite Hex. reflexivity. }
        rewrite Hs. apply IH. assumption.
      * assert (Hnin : ~ In fw active) by (intro Hin; apply E2 in Hin; discriminate).
        assert (Hns : existsb (Z.eqb fw) S = false).
        { destruct (existsb (Z.eqb fw) S) eqn:Ex; [|reflexivity]. apply existsb_eqb_In in Ex.
          apply (rep_In _ _ _ Hr) in Ex. tauto. }
        rewrite Hns. destruct (E3 eq_refl) as [[F1 F2]|[F1 [v [F2 F3]]]].
        -- subst fe. cbn [Z.leb]. change (0 <=? -1) with false.
           assert (Hz : zlen S = zlen active).
           { destruct Hr as [_ Hr]. rewrite (zlen_perm _ _ _ Hr). apply fws_full. assumption. }
           rewrite Hz, Z.ltb_irrefl.
           replace (if fw <? 0 then S else S) with S by (destruct (fw <? 0); reflexivity).
           apply IH. assumption.
        -- destruct (0 <=? fe) eqn:Efe; [|lia].
           rewrite aset_in_range by lia. cbn [obind].
           assert (Hlt : zlen S < zlen active).
           { destruct Hr as [_ Hr]. rewrite (zlen_perm _ _ _ Hr). unfold fws_of.
             destruct (znth_split_zupd _ _ _ _ 0 F2) as [l1 [l2 [G1 _]]]. rewrite G1.
             rewrite filter_app. cbn [filter].
             assert (D2 : dyn_active v = false) by (unfold dyn_active; lia). rewrite D2.
             unfold zlen. rewrite !app_length. cbn [length].
             assert (L1 := countb_le _ dyn_active l1). assert (L2 := countb_le _ dyn_active l2).
             unfold countb, zlen in L1, L2. lia. }
           set (a1 := zupd active fe fw).
           assert (Hl1 : zlen a1 = zlen active) by (unfold a1; apply zlen_zupd).
           match goal with |- context [fold_left (s_insert _) rest ?S'] => assert (Hr' : represents S' a1) end.
           { destruct Hr as [Hr1 Hr2]. destruct (fw <? 0) eqn:Ef.
             - split; [assumption|]. unfold a1. rewrite (fws_zupd_neg _ _ _ _ F2) by lia. assumption.
             - destruct (zlen S <? zlen active) eqn:El; [|lia]. split.
               + constructor; [|assumption]. intro Hin. apply existsb_eqb_In in Hin. congruence.
               + unfold a1. rewrite (fws_zupd_insert _ _ _ _ F2) by lia. constructor. assumption. }
           destruct (IH _ a1 true Hr') as [a [ch' [tr [G1 [G2 G3]]]]].
           rewrite Hl1 in G1, G3. rewrite G1. cbn [obind]. eexists _, _, _. split; [reflexivity|].
           split; [congruence|assumption].
Qed.

Lemma s_remove_notin : forall S v, ~ In v S -> s_remove S v = S.
Proof.
  intros S v. unfold s_remove. induction S as [|a S IH]; intro H; cbn [filter]; [reflexivity|].
  destruct (a =? v) eqn:E; cbn [negb].
  - exfalso. apply H. left. lia.
  - f_equal. apply IH. intro Hin. apply H. right. assumption.
Qed.

Lemma s_remove_perm : forall S S' v, Permutation S S' -> Permutation (s_remove S v) (s_remove S' v).
Proof.
  intros S S' v H. unfold s_remove. induction H; cbn [filter].
  - constructor.
  - destruct (negb (x =? v)); [constructor|]; assumption.
  - destruct (negb (x =? v)), (negb (y =? v)); try apply Permutation_refl. apply perm_swap.
  - eapply Permutation_trans; eauto.
Qed.

Lemma deactivate_args_rep : forall fws S active ch,
  represents S active ->
  exists a ch' tr, deactivate_args (zlen active) active fws ch = Ok (a, ch', tr) /\
    zlen a = zlen active /\ represents (fold_left s_remove fws S) a.
Proof.
  induction fws as [|fw rest IH]; intros S active ch Hr; cbn [deactivate_args fold_left].
  - eexists _, _, _. split; [reflexivity|]. split; [reflexivity|assumption].
  - destruct (scan_eq_spec active fw (Z.to_nat (zlen active)) 0) as [i [E1 E2]].
    + lia.
    + pose proof (zlen_nonneg _ active). lia.
    + intros; lia.
    + rewrite E1. cbn [obind]. destruct E2 as [[-> E2]|[E2 E3]].
      * change (0 <=? -1) with false. cbv iota.
        rewrite (s_remove_notin S fw); [apply IH; assumption|].
        intro Hin. apply (rep_In _ _ _ Hr) in Hin. tauto.
      * destruct (0 <=? i) eqn:Ei; [|lia]. rewrite aset_in_range by lia. cbn [obind].
        set (a1 := zupd active i (-1)).
        assert (Hl1 : zlen a1 = zlen active) by (unfold a1; apply zlen_zupd).
        assert (Hr' : represents (s_remove S fw) a1).
        { destruct (fw <? 0) eqn:Ef.
          - rewrite s_remove_notin.
            + destruct Hr as [Hr1 Hr2]. split; [assumption|].
              unfold a1. rewrite (fws_zupd_neg _ _ _ _ E3) by lia. assumption.
            + intro Hin. apply (rep_In _ _ _ Hr) in Hin. lia.
          - destruct Hr as [Hr1 Hr2]. split; [apply NoDup_filter; assumption|].
            assert (P : Permutation (fws_of active) (fw :: fws_of a1))
              by (apply (fws_zupd_remove _ _ _ _ E3); lia).
            assert (Hnd : NoDup (fw :: fws_of a1)).
            { eapply Permutation_NoDup; [|exact Hr1]. eapply Permutation_trans; eauto. }
            inversion Hnd; subst.
            rewrite (s_remove_perm _ _ fw (Permutation_trans Hr2 P)).
            unfold s_remove. cbn [filter]. rewrite Z.eqb_refl. cbn [negb].
            fold (s_remove (fws_of a1) fw). rewrite s_remove_notin by assumption. apply Permutation_refl. }
        destruct (IH _ a1 true Hr') as [a [ch' [tr [G1 [G2 G3]]]]].
        rewrite Hl1 in G1. rewrite G1. cbn [obind]. eexists _, _, _. split; [reflexivity|].
        split; [congruence|assumption].
Qed.

(** Nothing in these loops calls die(). *)
Lemma aget_not_die : forall A (l : list A) i, aget l i <> Die.
Proof. intros A l i. unfold aget. destruct (znth l i); discriminate. Qed.
Lemma aset_not_die : forall A (l : list A) i v, aset l i v <> Die.
Proof. intros A l i v. unfold aset. destruct (znth l i); try destruct (_ && _); discriminate. Qed.
Lemma obind_not_die : forall A B (e : outcome A) (f : A -> outcome B),
  e <> Die -> (forall a, e = Ok a -> f a <> Die) -> obind e f <> Die.
Proof. intros A B e f H1 H2. destruct e; cbn [obind]; try discriminate; auto. Qed.

Ltac not_die := repeat (apply obind_not_die; [first [apply aget_not_die | apply aset_not_die | solve [eauto]]|intros]).

Lemma find_slot_not_die : forall fuel l row nx, find_slot fuel l row nx <> Die.
Proof.
  induction fuel as [|fuel IH]; intros l row nx; cbn [find_slot]; not_die; destruct (_ >=? _); auto; discriminate.
Qed.

Lemma round_not_die : forall isact M perm active k i st, round isact M perm active k i st <> Die.
Proof.
  induction k as [|k IH]; intros i st; cbn [round]; [discriminate|].
  not_die. destruct (negb _); [apply IH|]. not_die.
  apply obind_not_die; [apply find_slot_not_die|]. intros [c nx'] _. not_die. cbn zeta.
  destruct (_ =? _); [discriminate|apply IH].
Qed.

Lemma rounds_not_die : forall isact M perm active N fuel st, rounds isact M perm active N fuel st <> Die.
Proof.
  induction fuel as [|fuel IH]; intros st; cbn [rounds]; [discriminate|].
  apply obind_not_die; [apply round_not_die|]. intros [st' b] _. destruct b; [discriminate|apply IH].
Qed.

Lemma populate_not_die : forall isact M N l perm active, populate_gen isact M N l perm active <> Die.
Proof.
  intros. unfold populate_gen. apply obind_not_die.
  - generalize (Z.to_nat M) as k. intro k. generalize 0 as i, (@nil store) as tr. revert l.
    induction k as [|k IH]; intros l i tr; cbn [clear_loop]; [discriminate|]. not_die. apply IH.
  - intros [l0 tr0] _. apply obind_not_die.
    + generalize (Z.to_nat N) as k. intro k. generalize 0 at 1 as i. generalize 0 as n. intros n i. revert n i.
      induction k as [|k IH]; intros n i; cbn [count_active]; [discriminate|]. not_die. apply IH.
    + intros na _. destruct (na =? 0); [discriminate|]. apply obind_not_die; [apply rounds_not_die|discriminate].
Qed.

Lemma activate_args_not_die : forall N fws active ch, activate_args N active fws ch <> Die.
Proof.
  induction fws as [|fw rest IH]; intros active ch; cbn [activate_args]; [discriminate|].
  apply obind_not_die.
  - generalize (Z.to_nat N) as k. intro k. generalize 0 as i, (-1) as fe.
    induction k as [|k IHk]; intros i fe; cbn [scan]; [discriminate|]. not_die. cbn zeta.
    destruct (_ =? _); [discriminate|apply IHk].
  - intros [found fe] _. destruct (_ && _); [|apply IH]. not_die.
    match goal with x : (_ * _)%type |- _ => destruct x as [[a2 ch2] tr2] end. discriminate.
Qed.

Lemma deactivate_args_not_die : forall N fws active ch, deactivate_args N active fws ch <> Die.
Proof.
  induction fws as [|fw rest IH]; intros active ch; cbn [deactivate_args]; [discriminate|].
  apply obind_not_die.
  - generalize (Z.to_nat N) as k. intro k. generalize 0 as i.
    induction k as [|k IHk]; intros i; cbn [scan_eq]; [discriminate|]. not_die.
    destruct (_ =? _); [discriminate|apply IHk].
  - intros i _. destruct (_ <=? _); [|apply IH]. not_die.
    match goal with x : (_ * _)%type |- _ => destruct x as [[a2 ch2] tr2] end. discriminate.
Qed.

(** The commands by fwmark. *)
Lemma good_rows_eq : forall m m', good_rows m -> mM m' = mM m -> mperm m' = mperm m -> good_rows m'.
Proof. intros m m' H E1 E2 row Hin. rewrite E1. apply H. rewrite <- E2. assumption. Qed.

Lemma run_cmd_rep : forall m S c, wf m -> good_rows m -> represents S (mactive m) ->
  exists m' tr, run_cmd m (to_cmd c) = Ok (m', tr) /\ represents (s_step (mN m) S c) (mactive m').
Proof.
  intros m S c Hwf Hg Hr. pose proof (wf_active _ Hwf) as Ha. destruct c as [fws|fws]; cbn [to_cmd run_cmd s_step].
  - destruct (activate_args_rep fws S (mactive m) false Hr) as [a [ch [tr [E1 [E2 E3]]]]].
    rewrite Ha in *. rewrite E1. cbn [obind].
    assert (Hwf' : wf (with_active m a)) by (apply wf_with_active; auto).
    destruct (finish_total (with_active m a) ch tr Hwf') as [[m' tr'] F]; [eapply good_rows_eq; eauto; reflexivity|].
    exists m', tr'. split; [assumption|]. apply finish_cases in F; [|assumption].
    destruct F as [_ [_ [_ [_ [F _]]]]]. rewrite F. assumption.
  - destruct (deactivate_args_rep fws S (mactive m) false Hr) as [a [ch [tr [E1 [E2 E3]]]]].
    rewrite Ha in *. rewrite E1. cbn [obind].
    assert (Hwf' : wf (with_active m a)) by (apply wf_with_active; auto).
    destruct (finish_total (with_active m a) ch tr Hwf') as [[m' tr'] F]; [eapply good_rows_eq; eauto; reflexivity|].
    exists m', tr'. split; [assumption|]. apply finish_cases in F; [|assumption].
    destruct F as [_ [_ [_ [_ [F _]]]]]. rewrite F. assumption.
Qed.

Lemma run_hist_rep : forall cs m S, wf m -> good_rows m -> synced m -> represents S (mactive m) ->
  exists m', run_hist m (map to_cmd cs) = Ok m' /\
    represents (fold_left (s_step (mN m)) cs S) (mactive m').
Proof.
  induction cs as [|c cs IH]; intros m S Hwf Hg Hs Hr; cbn [map run_hist fold_left].
  - exists m. auto.
  - destruct (run_cmd_rep m S c Hwf Hg Hr) as [m1 [tr [E1 E2]]]. rewrite E1.
    destruct (run_cmd_wf _ _ _ _ Hwf Hs E1) as [W1 [W2 [W3 [W4 W5]]]].
    destruct (IH m1 _ W1 (good_rows_eq _ _ Hg W3 W5) W2 E2) as [m' [F1 F2]].
    exists m'. split; [assumption|]. rewrite W4 in F2. assumption.
Qed.

(** The same without assuming anything about the rows, for runs that complete. *)
Lemma run_cmd_rep_ok : forall m S c m' tr, wf m -> represents S (mactive m) ->
  run_cmd m (to_cmd c) = Ok (m', tr) -> represents (s_step (mN m) S c) (mactive m').
Proof.
  intros m S c m' tr Hwf Hr H. pose proof (wf_active _ Hwf) as Ha. destruct c as [fws|fws]; cbn [to_cmd run_cmd s_step] in *.
  - destruct (activate_args_rep fws S (mactive m) false Hr) as [a [ch [tra [E1 [E2 E3]]]]].
    rewrite Ha in *. rewrite E1 in H. cbn [obind] in H.
    apply finish_cases in H; [|apply wf_with_active; auto].
    destruct H as [_ [_ [_ [_ [F _]]]]]. rewrite F. assumption.
  - destruct (deactivate_args_rep fws S (mactive m) false Hr) as [a [ch [tra [E1 [E2 E3]]]]].
    rewrite Ha in *. rewrite E1 in H. cbn [obind] in H.
    apply finish_cases in H; [|apply wf_with_active; auto].
    destruct H as [_ [_ [_ [_ [F _]]]]]. rewrite F. assumption.
Qed.

Lemma run_cmd_not_die : forall m c, wf m -> run_cmd m (to_cmd c) <> Die.
Proof.
  intros m c Hwf H. pose proof (wf_active _ Hwf) as Ha.
  assert (HF : forall m ch tr, finish m ch tr <> Die).
  { intros m0 ch tr. unfold finish, magDataDyn_populate. destruct ch; [|discriminate].
    destruct (populate_gen _ _ _ _ _ _) as [[l t]| | |] eqn:E; try discriminate.
    exfalso. revert E. apply populate_not_die. }
  destruct c as [fws|fws]; cbn [to_cmd run_cmd] in H.
  - destruct (activate_args (mN m) (mactive m) fws false) as [[[a ch] tra]| | |] eqn:E; try discriminate; cbn [obind] in H.
    + eapply HF; eauto.
    + revert E. apply activate_args_not_die.
  - destruct (deactivate_args (mN m) (mactive m) fws false) as [[[a ch] tra]| | |] eqn:E; try discriminate; cbn [obind] in H.
    + eapply HF; eauto.
    + revert E. apply deactivate_args_not_die.
Qed.

Lemma run_hist_rep_ok : forall cs m S m', wf m -> synced m -> represents S (mactive m) ->
  run_hist m (map to_cmd cs) = Ok m' ->
  represents (fold_left (s_step (mN m)) cs S) (mactive m').
Proof.
  induction cs as [|c cs IH]; intros m S m' Hwf Hs Hr H; cbn [map run_hist fold_left] in *.
  - injection H as <-. assumption.
  - destruct (run_cmd m (to_cmd c)) as [[m1 tr]| | |] eqn:E; try discriminate.
    + pose proof (run_cmd_rep_ok _ _ _ _ _ Hwf Hr E) as E2.
      destruct (run_cmd_wf _ _ _ _ Hwf Hs E) as [W1 [W2 [W3 [W4 W5]]]].
      rewrite <- W4 at 1. eapply IH; eauto.
    + exfalso. apply (run_cmd_not_die _ _ Hwf E).
Qed.

(** Every command, also with --index, is total in a good state (C06). *)
Definition cmd_int (c : cmd) : Prop :=
  match c with
  | ActivateIdx i _ | DeactivateIdx i => - 2 ^ 31 <= i < 2 ^ 31
  | _ => True
  end.

Lemma idx_in_range : forall N i, N <= 2 ^ 31 -> - 2 ^ 31 <= i < 2 ^ 31 -> u32 i < N -> 0 <= i < N.
Proof.
  intros N i HN Hi H. unfold u32, two32 in H. destruct (Z_lt_dec i 0).
  - assert (E : i mod 4294967296 = i + 2 ^ 32).
    { symmetry. apply Z.mod_unique with (q := -1); lia. }
    lia.
  - rewrite Z.mod_small in H by lia. lia.
Qed.

Lemma run_cmd_total : forall m c, wf m -> good_rows m -> mN m <= 2 ^ 31 -> cmd_int c ->
  (exists r, run_cmd m c = Ok r) \/ run_cmd m c = Die.
Proof.
  intros m c Hwf Hg Hn31 Hint. pose proof (wf_active _ Hwf) as Ha. pose proof (wf_N _ Hwf) as HN.
  assert (HA : forall fws active ch, zlen active = mN m ->
            exists a ch' tr, activate_args (mN m) active fws ch = Ok (a, ch', tr) /\ zlen a = mN m).
  { induction fws as [|fw rest IH]; intros active ch Hl; cbn [activate_args].
    - eexists _, _, _. split; [reflexivity|assumption].
    - destruct (scan_spec active fw (Z.to_nat (mN m)) 0 (-1)) as [b [fe [E1 [E2 E3]]]]; try lia.
      { left. split; [reflexivity|]. intros; lia. }
      rewrite E1. cbn [obind]. destruct b; cbn [negb andb]; [apply IH; assumption|].
      destruct (0 <=? fe) eqn:Ef; [|apply IH; assumption].
      destruct (E3 eq_refl) as [[F1 _]|[F1 _]]; [lia|]. rewrite aset_in_range by lia. cbn [obind].
      destruct (IH (zupd active fe fw) true) as [a [ch' [tr [G1 G2]]]]; [rewrite zlen_zupd; assumption|].
      rewrite G1. cbn [obind]. eexists _, _, _. split; [reflexivity|assumption]. }
  assert (HD : forall fws active ch, zlen active = mN m ->
            exists a ch' tr, deactivate_args (mN m) active fws ch = Ok (a, ch', tr) /\ zlen a = mN m).
  { induction fws as [|fw rest IH]; intros active ch Hl; cbn [deactivate_args].
    - eexists _, _, _. split; [reflexivity|assumption].
    - destruct (scan_eq_spec active fw (Z.to_nat (mN m)) 0) as [i [E1 E2]]; try lia.
      rewrite E1. cbn [obind]. destruct (0 <=? i) eqn:Ei; [|apply IH; assumption].
      destruct E2 as [[E2 _]|[E2 _]]; [lia|]. rewrite aset_in_range by lia. cbn [obind].
      destruct (IH (zupd active i (-1)) true) as [a [ch' [tr [G1 G2]]]]; [rewrite zlen_zupd; assumption|].
      rewrite G1. cbn [obind]. eexists _, _, _. split; [reflexivity|assumption]. }
  assert (HF : forall a ch tr, zlen a = mN m -> exists r, finish (with_active m a) ch tr = Ok r).
  { intros a ch tr Hl. apply finish_total; [apply wf_with_active; auto|eapply good_rows_eq; eauto; reflexivity]. }
  destruct c as [fws|i fw|fws|i]; cbn [run_cmd].
  - left. destruct (HA fws (mactive m) false Ha) as [a [ch [tr [E1 E2]]]]. rewrite E1. cbn [obind]. auto.
  - destruct (u32 i >=? mN m) eqn:Ei; [right; reflexivity|left].
    cbn [cmd_int] in Hint. assert (Hi : 0 <= i < mN m) by (apply idx_in_range; [assumption|assumption|lia]).
    destruct (aget_in_range _ (mactive m) i) as [a [Ha1 Ha2]]; [lia|].
    rewrite Ha1. cbn [obind]. destruct (a =? fw); [eexists; reflexivity|].
    rewrite aset_in_range by lia. cbn [obind]. apply HF. rewrite zlen_zupd. assumption.
  - left. destruct (HD fws (mactive m) false Ha) as [a [ch [tr [E1 E2]]]]. rewrite E1. cbn [obind]. auto.
  - destruct (u32 i >=? mN m) eqn:Ei; [right; reflexivity|left].
    cbn [cmd_int] in Hint. assert (Hi : 0 <= i < mN m) by (apply idx_in_range; [assumption|assumption|lia]).
    destruct (aget_in_range _ (mactive m) i) as [a [Ha1 Ha2]]; [lia|].
    rewrite Ha1. cbn [obind]. destruct (0 <=? a); [|eexists; reflexivity].
    rewrite aset_in_range by lia. cbn [obind]. apply HF. rewrite zlen_zupd. assumption.
Qed.

(** ** Store traces: crash points and concurrent readers (C09) *)
Definition apply_all (m : mag) (tr : list store) : mag := fold_left apply_store tr m.

(** A store that keeps indices inside the arrays, and only activates fwmarks that are
    active in [fin]. *)
Definition safe_store (M N : Z) (fin : list Z) (s : store) : Prop :=
  match s with
  | WLookup c v => 0 <= c < M /\ -1 <= v < N
  | WActive i v => 0 <= i < N /\ (v < 0 \/ In v fin)
  end.

(** What a reader needs. *)
Record readable (m : mag) : Prop := mkReadable {
  rd_wf : wf m;
  rd_lookup : forall v, In v (mlookup m) -> -1 <= v < mN m
}.

Lemma apply_store_params : forall m s, mM (apply_store m s) = mM m /\ mN (apply_store m s) = mN m /\
  mperm (apply_store m s) = mperm m.
Proof. intros m []; cbn; auto. Qed.

Lemma apply_store_readable : forall m fin s, readable m -> safe_store (mM m) (mN m) fin s -> readable (apply_store m s).
Proof.
  intros m fin s [[H1 H2 H3 H4 H5] Hl] Hs. destruct s as [c v|i v]; cbn in *.
  - split; cbn; [constructor; cbn; auto; rewrite zlen_zupd; assumption|].
    intros w Hw. apply In_zupd in Hw. destruct Hw as [->|Hw]; [lia|auto].
  - split; cbn; [constructor; cbn; auto; rewrite zlen_zupd; assumption|assumption].
Qed.

Lemma apply_all_app : forall m a b, apply_all m (a ++ b) = apply_all (apply_all m a) b.
Proof. intros. unfold apply_all. apply fold_left_app. Qed.

Lemma fold_lookup_stores : forall tr m,
  Forall (fun s => match s with WLookup _ _ => True | WActive _ _ => False end) tr ->
  apply_all m tr = mkMag (mM m) (mN m) (fold_left apply_store_lookup tr (mlookup m)) (mperm m) (mactive m).
Proof.
  induction tr as [|s tr IH]; intros m H.
  - destruct m; reflexivity.
  - inversion H; subst. destruct s as [c v|i v]; [|contradiction].
    unfold apply_all in *. cbn [fold_left]. rewrite IH by assumption. cbn. reflexivity.
Qed.

Lemma finish_trace : forall m ch tr m' tr', wf m -> short_rows m ->
  finish m ch tr = Ok (m', tr') ->
  exists tr2, tr' = tr ++ tr2 /\ m' = apply_all m tr2 /\
    Forall (safe_store (mM m) (mN m) (mactive m)) tr2 /\ (ch = false -> tr2 = []).
Proof.
  intros m ch tr m' tr' [H1 H2 H3 H4 H5] Hg H. unfold finish, magDataDyn_populate in H. destruct ch.
  - destruct (populate_weak dyn_active (mM m) (mN m) (mperm m) (mactive m) H1 H2 H4 H5 Hg (mlookup m) H3)
      as [[_ Hub]|[l [trp [P1 [P2 [P3 [P4 _]]]]]]]; [rewrite Hub in H; discriminate|].
    rewrite P1 in H. cbn [obind] in H. injection H as <- <-. exists trp. split; [reflexivity|].
    assert (Hx : Forall (fun s => match s with WLookup _ _ => True | WActive _ _ => False end) trp).
    { eapply Forall_impl; [|exact P3]. intros [c v|i v] Hok; [exact I|exact Hok]. }
    split; [|split; [|discriminate]].
    + rewrite fold_lookup_stores by assumption. rewrite P4. reflexivity.
    + eapply Forall_impl; [|exact P3]. intros [c v|i v] Hok; cbn in *; [|contradiction].
      split; [tauto|]. destruct Hok as [_ [->|[a [Ha _]]]]; [lia|].
      apply znth_some_range in Ha. lia.
  - injection H as <- <-. exists []. rewrite app_nil_r. repeat split; auto.
Qed.

(** Stores to the active array done by the argument loops. *)
Definition apply_store_active (l : list Z) (s : store) : list Z :=
  match s with WActive i v => zupd l i v | WLookup _ _ => l end.

Lemma fold_active_stores : forall tr m,
  Forall (fun s => match s with WLookup _ _ => False | WActive _ _ => True end) tr ->
  apply_all m tr = with_active m (fold_left apply_store_active tr (mactive m)).
Proof.
  induction tr as [|s tr IH]; intros m H.
  - destruct m; reflexivity.
  - inversion H; subst. destruct s as [c v|i v]; [contradiction|].
    unfold apply_all in *. cbn [fold_left]. rewrite IH by assumption. cbn. reflexivity.
Qed.

(** Slots holding an active fwmark are left alone by activate. *)
Lemma activate_args_keep : forall N fws active ch a ch' tr, zlen active = N ->
  activate_args N active fws ch = Ok (a, ch', tr) ->
  forall i v, znth active i = Some v -> 0 <= v -> znth a i = Some v.
Proof.
  induction fws as [|fw rest IH]; intros active ch a ch' tr Hl H i v Hi Hv; cbn [activate_args] in H.
  - injection H as <- _ _. assumption.
  - destruct (scan_spec active fw (Z.to_nat N) 0 (-1)) as [b [fe [E1 [E2 E3]]]];
      [lia|pose proof (zlen_nonneg _ active); lia|intros; lia|left; split; [reflexivity|intros; lia]|].
    rewrite E1 in H. cbn [obind] in H.
    destruct b; cbn [negb andb] in H; [eapply IH; eauto|].
    destruct (0 <=? fe) eqn:Ef; [|eapply IH; eauto].
    destruct (E3 eq_refl) as [[F1 _]|[F1 [w [F2 F3]]]]; [lia|].
    rewrite aset_in_range in H by lia. cbn [obind] in H.
    destruct (activate_args N (zupd active fe fw) rest true) as [[[a2 ch2] tr2]| | |] eqn:E4; try discriminate; cbn [obind] in H.
    injection H as <- _ _. eapply IH; [|exact E4| |assumption].
    + rewrite zlen_zupd. assumption.
    + rewrite znth_zupd_neq; [assumption|]. intro Hx. subst. rewrite F2 in Hi. injection Hi as Hi. lia.
Qed.

Lemma activate_args_trace : forall N fws active ch a ch' tr, zlen active = N ->
  activate_args N active fws ch = Ok (a, ch', tr) ->
  Forall (fun s => match s with WLookup _ _ => False | WActive _ _ => True end) tr /\
  a = fold_left apply_store_active tr active /\
  forall M, Forall (safe_store M N a) tr.
Proof.
  induction fws as [|fw rest IH]; intros active ch a ch' tr Hl H; cbn [activate_args] in H.
  - injection H as <- _ <-. repeat split; constructor.
  - destruct (scan_spec active fw (Z.to_nat N) 0 (-1)) as [b [fe [E1 [E2 E3]]]];
      [lia|pose proof (zlen_nonneg _ active); lia|intros; lia|left; split; [reflexivity|intros; lia]|].
    rewrite E1 in H. cbn [obind] in H.
    destruct b; cbn [negb andb] in H; [eapply IH; eauto|].
    destruct (0 <=? fe) eqn:Ef; [|eapply IH; eauto].
    destruct (E3 eq_refl) as [[F1 _]|[F1 [w [F2 F3]]]]; [lia|].
    rewrite aset_in_range in H by lia. cbn [obind] in H.
    destruct (activate_args N (zupd active fe fw) rest true) as [[[a2 ch2] tr2]| | |] eqn:E4; try discriminate; cbn [obind] in H.
    injection H as <- _ <-.
    assert (Hl' : zlen (zupd active fe fw) = N) by (rewrite zlen_zupd; assumption).
    destruct (IH _ _ _ _ _ Hl' E4) as [G1 [G2 G3]]. split; [constructor; auto|]. split; [exact G2|].
    intro M. constructor; [|apply G3]. cbn. split; [lia|]. destruct (Z_lt_dec fw 0); [left; assumption|right].
    apply znth_In with (i := fe).
    apply (activate_args_keep _ _ _ _ _ _ _ Hl' E4); [|lia]. apply znth_zupd_eq. lia.
Qed.

Lemma deactivate_args_trace : forall N fws active ch a ch' tr, zlen active = N ->
  deactivate_args N active fws ch = Ok (a, ch', tr) ->
  Forall (fun s => match s with WLookup _ _ => False | WActive _ _ => True end) tr /\
  a = fold_left apply_store_active tr active /\
  forall M fin, Forall (safe_store M N fin) tr.
Proof.
  induction fws as [|fw rest IH]; intros active ch a ch' tr Hl H; cbn [deactivate_args] in H.
  - injection H as <- _ <-. repeat split; constructor.
  - destruct (scan_eq_spec active fw (Z.to_nat N) 0) as [i [E1 E2]];
      [lia|pose proof (zlen_nonneg _ active); lia|intros; lia|].
    rewrite E1 in H. cbn [obind] in H.
    destruct (0 <=? i) eqn:Ei; [|eapply IH; eauto].
    destruct E2 as [[E2 _]|[E2 E3]]; [lia|].
    rewrite aset_in_range in H by lia. cbn [obind] in H.
    destruct (deactivate_args N (zupd active i (-1)) rest true) as [[[a2 ch2] tr2]| | |] eqn:E4; try discriminate; cbn [obind] in H.
    injection H as <- _ <-.
    assert (Hl' : zlen (zupd active i (-1)) = N) by (rewrite zlen_zupd; assumption).
    destruct (IH _ _ _ _ _ Hl' E4) as [G1 [G2 G3]]. split; [constructor; auto|]. split; [exact G2|].
    intros M fin. constructor; [|apply G3]. cbn. split; [lia|]. left; lia.
Qed.

(** The stores of a command are safe and produce its result. *)
Lemma run_cmd_trace : forall m c m' tr, wf m -> short_rows m -> run_cmd m c = Ok (m', tr) ->
  m' = apply_all m tr /\ Forall (safe_store (mM m) (mN m) (mactive m')) tr.
Proof.
  intros m c m' tr Hwf Hg H. pose proof (wf_active _ Hwf) as Ha.
  assert (HF : forall a ch tra, zlen a = mN m ->
            Forall (fun s => match s with WLookup _ _ => False | WActive _ _ => True end) tra ->
            a = fold_left apply_store_active tra (mactive m) ->
            Forall (safe_store (mM m) (mN m) a) tra ->
            finish (with_active m a) ch tra = Ok (m', tr) ->
            m' = apply_all m tr /\ Forall (safe_store (mM m) (mN m) (mactive m')) tr).
  { intros a ch tra Hl H1 H2 H3 H4.
    assert (Hwf' : wf (with_active m a)) by (apply wf_with_active; auto).
    assert (Hg' : short_rows (with_active m a)) by (eapply short_rows_eq; eauto; reflexivity).
    pose proof (finish_cases _ _ _ _ _ Hwf' H4) as [_ [_ [_ [_ [F5 _]]]]]. cbn in F5.
    destruct (finish_trace _ _ _ _ _ Hwf' Hg' H4) as [tr2 [-> [-> [K1 _]]]].
    rewrite apply_all_app. rewrite (fold_active_stores tra m) by assumption. rewrite <- H2.
    split; [reflexivity|]. rewrite F5. apply Forall_app. split; assumption. }
  destruct c as [fws|i fw|fws|i]; cbn [run_cmd] in H.
  - destruct (activate_args (mN m) (mactive m) fws false) as [[[a ch] tra]| | |] eqn:E; try discriminate; cbn [obind] in H.
    destruct (activate_args_trace _ _ _ _ _ _ _ Ha E) as [G1 [G2 G3]].
    apply activate_args_zlen in E. destruct E as [E _]. apply (HF a ch tra); auto. congruence.
  - destruct (u32 i >=? mN m); [discriminate|].
    destruct (aget (mactive m) i) as [a| | |] eqn:Ea; try discriminate; cbn [obind] in H.
    apply aget_ok in Ea. apply znth_some_range in Ea.
    destruct (a =? fw); [injection H as <- <-; split; [reflexivity|constructor]|].
    rewrite aset_in_range in H by lia. cbn [obind] in H.
    eapply HF; [| | | |exact H]; auto.
    + rewrite zlen_zupd. assumption.
    + constructor; [|constructor]. cbn. split; [lia|]. right. apply znth_In with (i := i). apply znth_zupd_eq. lia.
  - destruct (deactivate_args (mN m) (mactive m) fws false) as [[[a ch] tra]| | |] eqn:E; try discriminate; cbn [obind] in H.
    destruct (deactivate_args_trace _ _ _ _ _ _ _ Ha E) as [G1 [G2 G3]].
    apply deactivate_args_zlen in E. destruct E as [E _]. apply (HF a ch tra); auto. congruence.
  - destruct (u32 i >=? mN m); [discriminate|].
    destruct (aget (mactive m) i) as [a| | |] eqn:Ea; try discriminate; cbn [obind] in H.
    apply aget_ok in Ea. apply znth_some_range in Ea.
    destruct (0 <=? a); [|injection H as <- <-; split; [reflexivity|constructor]].
    rewrite aset_in_range in H by lia. cbn [obind] in H.
    eapply HF; [| | | |exact H]; auto.
    + rewrite zlen_zupd. assumption.
    + constructor; [|constructor]. cbn. split; [lia|]. left; lia.
Qed.

(** States during a safe trace. *)
Lemma states_inv : forall tr fin m s, readable m ->
  Forall (safe_store (mM m) (mN m) fin) tr -> In s (states m tr) ->
  readable s /\ mM s = mM m /\ mN s = mN m /\ mperm s = mperm m /\
  (forall v, In v (mactive s) -> v < 0 \/ In v (mactive m) \/ In v fin).
Proof.
  induction tr as [|t tr IH]; intros fin m s Hr Hs Hin; cbn [states In] in Hin.
  - destruct Hin as [<-|[]]. repeat (split; auto).
  - destruct Hin as [<-|Hin].
    + repeat (split; auto).
    + inversion Hs; subst.
      destruct (apply_store_params m t) as [P1 [P2 P3]].
      destruct (IH fin (apply_store m t) s) as [I1 [I2 [I3 [I4 I5]]]]; auto.
      * eapply apply_store_readable; eauto.
      * rewrite P1, P2. assumption.
      * split; [assumption|]. split; [congruence|]. split; [congruence|]. split; [congruence|].
        intros v Hv. destruct (I5 v Hv) as [Hx|[Hx|Hx]]; auto.
        destruct t as [c w|i w]; cbn in Hx; [auto|]. apply In_zupd in Hx. destruct Hx as [->|Hx]; [|auto].
        cbn in H1. destruct H1 as [_ [H1|H1]]; auto.
Qed.

Lemma apply_all_last_state : forall tr m, In (apply_all m tr) (states m tr).
Proof.
  induction tr as [|t tr IH]; intro m; cbn; [auto|right]. apply IH.
Qed.

Lemma creach_inv : forall m1 m2, creach m1 m2 -> readable m1 -> short_rows m1 ->
  readable m2 /\ short_rows m2 /\ mM m2 = mM m1 /\ mN m2 = mN m1.
Proof.
  induction 1 as [m|m1 m2 c m' tr s H IH Hc Hs]; intros Hr Hg; [auto|].
  destruct (IH Hr Hg) as [I1 [I2 [I3 I4]]].
  destruct (run_cmd_trace _ _ _ _ (rd_wf _ I1) I2 Hc) as [_ T].
  destruct (states_inv _ _ _ _ I1 T Hs) as [S1 [S2 [S3 [S4 _]]]].
  split; [assumption|]. split; [eapply short_rows_eq; eauto|]. split; congruence.
Qed.

Lemma read2_safe : forall m1 m2 h, readable m1 -> readable m2 -> mN m1 = mN m2 -> 0 <= h ->
  exists v, read2 m1 m2 h = Ok v /\ (v < 0 \/ In v (mactive m2)).
Proof.
  intros m1 m2 h [[H1 H2 H3 H4 H5] Hl] [[G1 G2 G3 G4 G5] _] HN Hh. unfold read2.
  assert (Hm : 0 <= h mod mM m1 < mM m1) by (apply Z.mod_pos_bound; lia).
  destruct (aget_in_range _ (mlookup m1) (h mod mM m1)) as [l [L1 L2]]; [lia|].
  rewrite L1. cbn [obind]. destruct (l >=? 0) eqn:E.
  - assert (-1 <= l < mN m1) by (apply Hl; eapply znth_In; eauto).
    destruct (aget_in_range _ (mactive m2) l) as [v [V1 V2]]; [lia|].
    exists v. split; [assumption|]. right. eapply znth_In; eauto.
  - exists l. split; [reflexivity|]. left. lia.
Qed.

(** Between two instants of one command. *)
Lemma read2_during : forall m c m' tr s1 s2 h, readable m -> short_rows m ->
  run_cmd m c = Ok (m', tr) -> In s1 (states m tr) -> In s2 (states m tr) -> 0 <= h ->
  exists v, read2 s1 s2 h = Ok v /\ (v < 0 \/ In v (mactive m) \/ In v (mactive m')).
Proof.
  intros m c m' tr s1 s2 h Hr Hg Hc Hs1 Hs2 Hh.
  destruct (run_cmd_trace _ _ _ _ (rd_wf _ Hr) Hg Hc) as [_ T].
  destruct (states_inv _ _ _ _ Hr T Hs1) as [A1 [A2 [A3 [A4 A5]]]].
  destruct (states_inv _ _ _ _ Hr T Hs2) as [B1 [B2 [B3 [B4 B5]]]].
  destruct (read2_safe s1 s2 h) as [v [V1 V2]]; auto; [congruence|].
  exists v. split; [assumption|]. destruct V2 as [V2|V2]; [auto|]. apply B5 in V2. tauto.
Qed.

Lemma synced_readable : forall m, wf m -> short_rows m -> synced m -> readable m.
Proof.
  intros m Hwf Hg Hs. split; [assumption|]. intros v Hv.
  destruct (synced_facts m Hwf Hg Hs) as [F1 F2].
  destruct (existsb dyn_active (mactive m)) eqn:E.
  - apply existsb_exists in E. destruct E as [a [Ea1 Ea2]]. apply In_znth in Ea1. destruct Ea1 as [j Ej].
    destruct F2 as [F2 _]; [exists j, a; split; [assumption|unfold dyn_active in Ea2; lia]|].
    destruct (F2 v Hv) as [b [Hb _]]. apply znth_some_range in Hb. rewrite (wf_active _ Hwf) in Hb. lia.
  - pose proof (wf_N _ Hwf). rewrite (F1) with (v := v); [lia| |assumption].
    intros j [a [Ha1 Ha2]]. assert (Ht : existsb dyn_active (mactive m) = true).
    { apply existsb_exists. exists a. split; [eapply znth_In; eauto|unfold dyn_active; lia]. }
    congruence.
Qed.
