(** Proofs about the preference lists, init and the memory layout. *)
From Coq Require Import Znumtheory Permutation.
From Verif Require Import Base Lists Prime_Model Prime_Proofs Maglev_Model Maglev_Spec Maglev_Proofs.

Lemma in_slots : forall M c, In c (slots M) <-> 0 <= c < M.
Proof.
  intros M c. unfold slots. rewrite in_map_iff. split.
  - intros [k [<- Hk]]. apply in_seq in Hk. lia.
  - intro H. exists (Z.to_nat c). split; [lia|]. apply in_seq. lia.
Qed.

Lemma slots_length : forall M, length (slots M) = Z.to_nat M.
Proof. intros. unfold slots. rewrite map_length, seq_length. reflexivity. Qed.

Lemma slots_NoDup : forall M, NoDup (slots M).
Proof.
  intros. unfold slots. apply FinFun.Injective_map_NoDup; [|apply seq_NoDup].
  intros x y H. lia.
Qed.

Lemma make_row_length : forall M r1 r2, length (make_row M r1 r2) = Z.to_nat M.
Proof. intros. unfold make_row. rewrite map_length, seq_length. reflexivity. Qed.

Lemma NoDup_map_inj_in : forall A B (f : A -> B) l,
  (forall x y, In x l -> In y l -> f x = f y -> x = y) -> NoDup l -> NoDup (map f l).
Proof.
  induction l as [|a l IH]; intros Hinj Hnd; simpl; [constructor|].
  inversion Hnd; subst. constructor.
  - intro Hin. apply in_map_iff in Hin. destruct Hin as [x [Hx1 Hx2]].
    assert (x = a) by (apply Hinj; simpl; auto). subst. contradiction.
  - apply IH; [|assumption]. intros x y Hx Hy. apply Hinj; simpl; auto.
Qed.

Lemma row_entry_nowrap : forall M o s j,
  0 <= o < M -> 0 <= s < M -> 0 <= j < M -> o + (M - 1) * s < two32 ->
  row_entry M o s j = (o + j * s) mod M.
Proof.
  intros M o s j Ho Hs Hj Hb. unfold row_entry, u32.
  rewrite (Z.mod_small (j * s)) by nia. rewrite (Z.mod_small (o + j * s)) by nia. reflexivity.
Qed.

Lemma row_entry_inj : forall M o s j1 j2, prime M ->
  0 < s < M -> 0 <= j1 < M -> 0 <= j2 < M ->
  (o + j1 * s) mod M = (o + j2 * s) mod M -> j1 = j2.
Proof.
  intros M o s j1 j2 Hp Hs H1 H2 He.
  assert (Hz : M <> 0) by lia.
  assert (Hd : (M | (j1 - j2) * s)).
  { apply Z.mod_divide; [assumption|].
    replace ((j1 - j2) * s) with ((o + j1 * s) - (o + j2 * s)) by ring.
    rewrite Zminus_mod, He, Z.sub_diag. apply Z.mod_0_l. assumption. }
  apply prime_mult in Hd; [|assumption]. destruct Hd as [Hd|Hd].
  - destruct Hd as [q Hq]. assert (q = 0) by nia. subst. lia.
  - apply Z.divide_pos_le in Hd; lia.
Qed.

Lemma row_offset_range : forall M r1, 0 < M -> 0 <= row_offset M r1 < M.
Proof. intros. unfold row_offset. apply Z.mod_pos_bound; lia. Qed.

Lemma row_skip_range : forall M r2, 2 < M < two32 -> 0 < row_skip M r2 < M.
Proof.
  intros M r2 HM. unfold row_skip, u32.
  assert (0 <= r2 mod (M - 1) < M - 1) by (apply Z.mod_pos_bound; lia).
  rewrite Z.mod_small by lia. lia.
Qed.

Lemma make_row_permutation_gen : forall M r1 r2,
  prime M -> 3 <= M < two32 ->
  row_offset M r1 + (M - 1) * row_skip M r2 < two32 ->
  Permutation (make_row M r1 r2) (slots M).
Proof.
  intros M r1 r2 Hp HM Hb.
  assert (Ho := row_offset_range M r1 ltac:(lia)).
  assert (Hs := row_skip_range M r2 ltac:(lia)).
  apply NoDup_Permutation_bis.
  - unfold make_row. apply NoDup_map_inj_in; [|apply seq_NoDup].
    intros x y Hx Hy He. apply in_seq in Hx, Hy.
    rewrite !row_entry_nowrap in He by lia.
    apply row_entry_inj in He; auto; lia.
  - rewrite make_row_length, slots_length. lia.
  - intros c Hc. apply in_slots. unfold make_row in Hc. apply in_map_iff in Hc.
    destruct Hc as [j [<- Hj]]. unfold row_entry. apply Z.mod_pos_bound. lia.
Qed.

Lemma make_row_permutation : forall M r1 r2,
  prime M -> 3 <= M <= 65536 -> 0 <= r1 -> 0 <= r2 ->
  Permutation (make_row M r1 r2) (slots M).
Proof.
  intros M r1 r2 Hp HM Hr1 Hr2. apply make_row_permutation_gen; auto; [unfold two32; lia|].
  assert (Ho := row_offset_range M r1 ltac:(lia)).
  assert (Hs := row_skip_range M r2 ltac:(unfold two32; lia)).
  unfold two32. nia.
Qed.

Lemma permutation_good_row : forall M row, 0 < M ->
  Permutation row (slots M) -> good_row M row.
Proof.
  intros M row HM Hp. repeat split.
  - unfold zlen. rewrite (Permutation_length Hp), slots_length. lia.
  - apply (Permutation_in _ Hp) in H. apply in_slots in H. lia.
  - apply (Permutation_in _ Hp) in H. apply in_slots in H. lia.
  - intros c Hc. apply in_slots in Hc. apply (Permutation_in _ (Permutation_sym Hp)) in Hc.
    apply In_znth. assumption.
Qed.

Lemma make_rows_nth : forall M N rand i row,
  znth (make_rows M N rand) i = Some row ->
  0 <= i < N /\ row = make_row M (rand (2 * Z.to_nat i)%nat) (rand (2 * Z.to_nat i + 1)%nat).
Proof.
  intros M N rand i row H. unfold make_rows in H.
  rewrite znth_map in H.
  destruct (znth (seq 0 (Z.to_nat N)) i) as [k|] eqn:E; [|discriminate].
  assert (Hr := znth_some_range _ _ _ _ E). unfold zlen in Hr. rewrite seq_length in Hr.
  unfold znth in E. destruct (i <? 0) eqn:Ei; [discriminate|].
  assert (k = Z.to_nat i).
  { apply nth_error_nth with (d := O) in E. rewrite seq_nth in E; lia. }
  subst k. injection H as <-. split; [lia|reflexivity].
Qed.

Lemma make_rows_zlen : forall M N rand, 0 <= N -> zlen (make_rows M N rand) = N.
Proof. intros. unfold make_rows. rewrite zlen_map. unfold zlen. rewrite seq_length. lia. Qed.

Lemma primeBelow_prime : forall p, prime p -> p <= 994009 -> primeBelow p = Ok p.
Proof.
  intros p Hp Hle. assert (H2 := prime_ge_2 p Hp).
  destruct (primeBelow_correct p H2) as [q [Hq1 [Hq2 [Hq3 Hq4]]]].
  rewrite Hq1. f_equal. assert (p <= q) by (apply Hq4; [assumption|lia]). lia.
Qed.

(** What a successful init command establishes. *)
Lemma cmdInit_ok : forall m n rand p,
  0 <= n < two32 -> 0 <= m < two32 ->
  primeBelow (Z.max m 3) = Ok p -> n <= p ->
  24 + 4 * (p * n) + 4 * (p + n) < two32 ->
  exists mg, cmdInit m n rand = Ok mg /\ prime p /\ 3 <= p <= 994009 /\
    mM mg = p /\ mN mg = n /\ mperm mg = make_rows p n rand /\
    mactive mg = repeat (-1) (Z.to_nat n) /\
    mlookup mg = repeat (-1) (Z.to_nat p).
Proof.
  intros m n rand p Hn Hm Hp Hle Hfit. unfold cmdInit.
  destruct (primeBelow_correct (Z.max m 3)) as [q [Hq1 [Hq2 [Hq3 Hq4]]]]; [lia|].
  assert (q = p) by congruence. subst q.
  assert (Hp3 : 3 <= p) by (apply Hq4; [apply prime_3|lia]).
  assert (Hp9 : p <= 994009) by lia.
  assert (He : (if m <? 3 then Ok 3 else primeBelow m) = Ok p).
  { destruct (m <? 3) eqn:E.
    - rewrite Z.max_r in Hp by lia. rewrite <- Hp. vm_compute. reflexivity.
    - rewrite Z.max_l in Hp by lia. assumption. }
  rewrite He. cbn [obind]. destruct (n >? p) eqn:E; [lia|].
  assert (Hpp : primeBelow p = Ok p) by (apply primeBelow_prime; assumption).
  assert (Hmax : (if p <? 3 then 3 else p) = p) by (destruct (p <? 3) eqn:E3; lia).
  unfold magDataDyn_len. rewrite Hmax, Hpp. cbn [obind].
  unfold magDataDyn_init, magDataDyn_len. rewrite Hmax, Hpp. cbn [obind].
  rewrite Hmax, Hpp. cbn [obind].
  rewrite Z.ltb_irrefl.
  assert (Hlf : layout_fits p n (len_formula p n) = true).
  { unfold layout_fits, len_formula, u32.
    rewrite (Z.mod_small (p * n)) by (unfold two32 in *; nia).
    rewrite (Z.mod_small (3 + p * n)) by (unfold two32 in *; nia).
    rewrite (Z.mod_small (p + n)) by (unfold two32 in *; nia).
    rewrite Z.mod_small by (unfold two32 in *; nia). apply Z.leb_le. nia. }
  rewrite Hlf. cbn [negb].
  unfold magDataDyn_populate. cbn [mM mN mlookup mperm mactive].
  assert (Hnoact : forall j, ~ act dyn_active (repeat (-1) (Z.to_nat n)) j).
  { intros j [a [Ha1 Ha2]]. apply znth_In, repeat_spec in Ha1. subst. discriminate. }
  destruct (populate_ok dyn_active p n (make_rows p n rand) (repeat (-1) (Z.to_nat n)))
    with (lookup := repeat 0 (Z.to_nat p)) as [l [tr [H1 [H2 [H3 [H4 [H5 H6]]]]]]].
  - unfold two32. lia.
  - assumption.
  - apply make_rows_zlen. lia.
  - rewrite zlen_repeat. lia.
  - intros i row Hact. exfalso. apply (Hnoact i Hact).
  - rewrite zlen_repeat. lia.
  - rewrite H1. cbn [obind fst]. eexists. split; [reflexivity|]. cbn [mM mN mlookup mperm mactive].
    split; [assumption|]. split; [lia|]. repeat (split; [reflexivity|]).
    apply znth_ext; [rewrite zlen_repeat; lia|].
    intros i Hi. rewrite znth_repeat by lia.
    destruct (znth_in_range _ l i) as [v Hv]; [assumption|].
    rewrite Hv. f_equal. apply (H5 Hnoact). eapply znth_In; eauto.
Qed.

(** ** Weak correctness: without any assumption on the rows, populate is either [Ok]
    or [UB]; and [Ok] implies that every slot appears in the row of an active target. *)
Section Weak.
Variable isact : Z -> bool.
Variables M N : Z.
Variable perm : list (list Z).
Variable active : list Z.
Hypothesis HM : 0 < M < two32.
Hypothesis HN : 0 <= N < two32.
Hypothesis Hperm : zlen perm = N.
Hypothesis Hactive : zlen active = N.
Hypothesis Hlen : forall row, In row perm -> zlen row < two32.

Local Notation act := (act isact active).

Definition covered (c : Z) : Prop := exists j row, act j /\ znth perm j = Some row /\ In c row.

Record winv (r i : Z) (st : pst) : Prop := mkWinv {
  w_len : zlen (p_lookup st) = M;
  w_next : zlen (p_next st) = N;
  w_n : p_n st = countb filledb (p_lookup st);
  w_lt : p_n st < M;
  w_val : forall v, In v (p_lookup st) -> v = -1 \/ act v;
  w_nx : forall nx, In nx (p_next st) -> 0 <= nx;
  w_cov : forall c, filled (p_lookup st) c -> covered c;
  w_own : forall j, act j -> owned (p_lookup st) j = r + (if j <? i then 1 else 0)
}.

Lemma wact_range : forall j, act j -> 0 <= j < N.
Proof. intros j [a [Ha _]]. apply znth_some_range in Ha. lia. Qed.

Lemma find_slot_weak : forall fuel l row nx,
  0 <= nx -> zlen row < two32 -> zlen row <= nx + Z.of_nat fuel ->
  find_slot fuel l row nx = UB \/
  exists c nx' v, find_slot fuel l row nx = Ok (c, nx') /\ 0 <= nx' < zlen row /\
     znth row nx' = Some c /\ znth l c = Some v /\ v < 0.
Proof.
  induction fuel as [|fuel IH]; intros l row nx Hnx Hlr Hf; cbn [find_slot].
  - unfold aget at 1. rewrite znth_out by lia. left. reflexivity.
  - destruct (znth row nx) as [c|] eqn:E.
    2:{ left. unfold aget. rewrite E. reflexivity. }
    assert (E' : aget row nx = Ok c) by (apply aget_ok; assumption).
    rewrite E'. cbn [obind]. destruct (znth l c) as [v|] eqn:E2.
    2:{ left. unfold aget. rewrite E2. reflexivity. }
    assert (E2' : aget l c = Ok v) by (apply aget_ok; assumption).
    rewrite E2'. cbn [obind].
    assert (Hr := znth_some_range _ _ _ _ E). destruct (v >=? 0) eqn:Ev.
    + assert (Hu : u32 (nx + 1) = nx + 1) by (unfold u32; apply Z.mod_small; lia).
      rewrite Hu. apply IH; lia.
    + right. exists c, nx, v. repeat split; auto; lia.
Qed.

Lemma round_weak : forall l0 k i r st,
  0 <= i -> i + Z.of_nat k = N -> winv r i st -> trace_inv isact M active l0 st ->
  round isact M perm active k i st = UB \/
  exists st' b, round isact M perm active k i st = Ok (st', b) /\ trace_inv isact M active l0 st' /\
    (if b then fin isact M active st' /\ forall c, 0 <= c < M -> covered c
     else winv (r + 1) 0 st' /\ p_n st <= p_n st' /\ ((exists j, i <= j < N /\ act j) -> p_n st < p_n st')).
Proof.
  intros lk0. induction k as [|k IH]; intros i r st Hi Hk Hinv Htr; cbn [round].
  - right. exists st, false. split; [reflexivity|]. split; [assumption|].
    split; [|split; [lia|intros [j [Hj _]]; lia]].
    destruct Hinv as [H1 H2 H3 H4 H5 H6 H7 H8]. constructor; auto.
    intros j Hj. rewrite H8 by assumption.
    apply wact_range in Hj. destruct (j <? i) eqn:E1; destruct (j <? 0) eqn:E2; lia.
  - destruct (aget_in_range _ active i) as [a [Ha1 Ha2]]; [lia|].
    rewrite Ha1. cbn [obind]. destruct (isact a) eqn:Ea; cbn [negb].
    + assert (Hact : act i) by (exists a; auto).
      destruct (aget_in_range _ perm i) as [row [Hr1 Hr2]]; [lia|].
      rewrite Hr1. cbn [obind]. pose proof Hinv as [H1 H2 H3 H4 H5 H6 H7 H8].
      destruct (aget_in_range _ (p_next st) i) as [nx [Hn1 Hn2]]; [lia|].
      rewrite Hn1. cbn [obind].
      assert (Hnx : 0 <= nx) by (apply H6; eapply znth_In; eauto).
      assert (Hrl : zlen row < two32) by (apply Hlen; eapply znth_In; eauto).
      destruct (find_slot_weak (length row) (p_lookup st) row nx) as [Hub|[c [nx' [v [Hf1 [Hf2 [Hf3 [Hf4 Hf5]]]]]]]];
        auto; [unfold zlen; lia| |].
      { left. rewrite Hub. reflexivity. }
      rewrite Hf1. cbn [obind].
      assert (Hcr := znth_some_range _ _ _ _ Hf4).
      rewrite (aset_in_range _ (p_lookup st)) by lia. cbn [obind].
      rewrite (aset_in_range _ (p_next st)) by lia. cbn [obind p_n].
      assert (Hv : v = -1).
      { destruct (H5 v) as [|Hv]; [eapply znth_In; eauto|assumption|].
        apply wact_range in Hv. lia. }
      subst v.
      assert (Hu : u32 (p_n st + 1) = p_n st + 1).
      { unfold u32. apply Z.mod_small. rewrite H3.
        assert (Hcn := countb_nonneg _ filledb (p_lookup st)). unfold two32 in *. lia. }
      assert (Hun : u32 (nx' + 1) = nx' + 1) by (unfold u32; apply Z.mod_small; unfold two32 in *; lia).
      rewrite Hu, Hun.
      set (l' := zupd (p_lookup st) c i).
      assert (Hcnt : countb filledb l' = countb filledb (p_lookup st) + 1).
      { unfold l'. rewrite (countb_zupd _ _ _ _ _ _ Hf4).
        assert (Hfi : filledb i = true) by (unfold filledb; lia).
        rewrite Hfi. cbn [filledb]. change (filledb (-1)) with false. lia. }
      assert (Hl' : zlen l' = M) by (unfold l'; rewrite zlen_zupd; assumption).
      assert (Hcov : forall c0, filled l' c0 -> covered c0).
      { intros c0 [w [Hw1 Hw2]]. destruct (Z.eq_dec c c0).
        - subst. exists i, row. repeat split; auto. eapply znth_In; eauto.
        - apply H7. exists w. unfold l' in Hw1. rewrite znth_zupd_neq in Hw1; auto. }
      assert (Hval : forall x, In x l' -> x = -1 \/ act x).
      { intros x Hx. apply In_zupd in Hx. destruct Hx as [->|Hx]; auto. }
      assert (Hown : forall j, act j -> owned l' j = r + (if j <? i + 1 then 1 else 0)).
      { intros j Hj. unfold owned, l'. rewrite (countb_zupd _ _ _ _ _ _ Hf4).
        fold (owned (p_lookup st) j). rewrite (H8 j Hj). apply wact_range in Hj.
        destruct (j =? -1) eqn:E1; [lia|].
        destruct (j =? i) eqn:E2; destruct (j <? i) eqn:E3; destruct (j <? i + 1) eqn:E4; lia. }
      set (st' := mkPst l' (zupd (p_next st) i (nx' + 1)) (p_n st + 1) (WLookup c i :: p_trace st)).
      assert (Htr' : trace_inv isact M active lk0 st').
      { destruct Htr as [Ht1 Ht2]. split.
        - cbn. constructor; [|assumption]. cbn. split; [lia|auto].
        - cbn [st' p_trace rev p_lookup]. rewrite fold_left_app. rewrite <- Ht2. reflexivity. }
      destruct (p_n st + 1 =? M) eqn:EM.
      * right. exists st', true. split; [reflexivity|]. split; [assumption|].
        assert (Hfull : forall x, In x l' -> filledb x = true).
        { intros x Hx. apply (countb_full _ filledb l'); [lia|assumption]. }
        split.
        -- constructor; cbn [st' p_lookup]; auto.
           ++ intros x Hx. destruct (Hval x Hx) as [->|]; [|assumption].
              apply Hfull in Hx. discriminate.
           ++ exists r. intros j Hj. rewrite Hown by assumption. destruct (j <? i + 1); lia.
        -- intros c0 Hc0. apply Hcov.
           destruct (znth_in_range _ l' c0) as [w Hw]; [lia|].
           exists w. split; [assumption|]. apply Hfull. eapply znth_In; eauto.
      * destruct (IH (i + 1) r st') as [Hub|[st'' [b [Hq1 [Hq2 Hq3]]]]]; auto; try lia.
        { constructor; cbn [st' p_lookup p_next p_n]; auto; try lia.
          - rewrite zlen_zupd. assumption.
          - intros w Hw. apply In_zupd in Hw. destruct Hw as [->|Hw]; [lia|auto]. }
        right. exists st'', b. split; [assumption|]. split; [assumption|]. destruct b; [assumption|].
        cbn [st' p_n] in Hq3. destruct Hq3 as [Hq3 [Hq4 Hq5]]. split; [assumption|]. split; [lia|]. intros; lia.
    + assert (Hnact : ~ act i) by (intros [b [Hb1 Hb2]]; congruence).
      destruct (IH (i + 1) r st) as [Hub|[st'' [b [Hq1 [Hq2 Hq3]]]]]; auto; try lia.
      { destruct Hinv as [H1 H2 H3 H4 H5 H6 H7 H8]. constructor; auto.
        intros j Hj. rewrite H8 by assumption.
        destruct (Z.eq_dec i j); [subst; contradiction|].
        destruct (j <? i) eqn:E1; destruct (j <? i + 1) eqn:E2; lia. }
      right. exists st'', b. split; [assumption|]. split; [assumption|]. destruct b; [assumption|].
      destruct Hq3 as [Hq3 [Hq4 Hq5]]. split; [assumption|]. split; [assumption|].
      intros [j [Hj1 Hj2]]. apply Hq5. exists j. split; [|assumption].
      destruct (Z.eq_dec i j); [subst; contradiction|lia].
Qed.

Lemma rounds_weak : forall l0 fuel r st,
  winv r 0 st -> trace_inv isact M active l0 st -> (exists j, act j) -> M - p_n st < Z.of_nat fuel ->
  rounds isact M perm active (Z.to_nat N) fuel st = UB \/
  ((exists st', rounds isact M perm active (Z.to_nat N) fuel st = Ok st' /\
        trace_inv isact M active l0 st' /\ fin isact M active st') /\
   forall c, 0 <= c < M -> covered c).
Proof.
  intros l0. induction fuel as [|fuel IH]; intros r st Hinv Htr Hex Hfuel.
  - pose proof (w_lt _ _ _ Hinv). lia.
  - cbn [rounds]. destruct (round_weak l0 (Z.to_nat N) 0 r st) as [Hub|[st' [b [H1 [H2 H3]]]]]; auto; try lia.
    { left. rewrite Hub. reflexivity. }
    rewrite H1. cbn [obind]. destruct b.
    + right. destruct H3 as [H3 H4]. split; [exists st'; auto|assumption].
    + destruct H3 as [H3 [H4 H5]]. destruct Hex as [j Hj].
      assert (p_n st < p_n st').
      { apply H5. exists j. split; [|assumption]. apply wact_range. assumption. }
      apply (IH (r + 1)); auto; [exists j; assumption|]. lia.
Qed.

Lemma act_dec : (exists j, act j) \/ (forall j, ~ act j).
Proof.
  destruct (existsb isact active) eqn:E.
  - left. apply existsb_exists in E. destruct E as [a [E1 E2]]. apply In_znth in E1. destruct E1 as [j E1].
    exists j, a. auto.
  - right. intros j [a [H1 H2]]. assert (Ht : existsb isact active = true).
    { apply existsb_exists. exists a. split; [eapply znth_In; eauto|assumption]. }
    congruence.
Qed.

(** The general statement: whatever the rows are, populate either runs off a row ([UB])
    or produces a full and balanced table. *)
Lemma populate_weak : forall lookup, zlen lookup = M ->
  ((exists j, act j) /\ populate_gen isact M N lookup perm active = UB) \/
  (exists l tr, populate_gen isact M N lookup perm active = Ok (l, tr) /\
    zlen l = M /\
    Forall (store_ok isact M active) tr /\ l = fold_left apply_store_lookup tr lookup /\
    ((forall j, ~ act j) -> forall v, In v l -> v = -1) /\
    ((exists j, act j) -> (forall v, In v l -> act v) /\
        (exists r, forall j, act j -> r <= owned l j <= r + 1) /\
        (forall c, 0 <= c < M -> covered c))).
Proof.
  intros lookup Hl. destruct act_dec as [Hex|Hno].
  2:{ right. destruct (populate_ok isact M N perm active) with (lookup := lookup)
        as [l [tr [P1 [P2 [P3 [P4 [P5 P6]]]]]]]; auto.
      { intros i row Ha. exfalso. apply (Hno i Ha). }
      exists l, tr. repeat (split; [assumption|]). intros [j Hj]. exfalso. apply (Hno j Hj). }
  assert (Hgoal : populate_gen isact M N lookup perm active = UB \/
    exists l tr, populate_gen isact M N lookup perm active = Ok (l, tr) /\
    zlen l = M /\
    Forall (store_ok isact M active) tr /\ l = fold_left apply_store_lookup tr lookup /\
    (forall v, In v l -> act v) /\
        (exists r, forall j, act j -> r <= owned l j <= r + 1) /\
        (forall c, 0 <= c < M -> covered c)).
  2:{ destruct Hgoal as [Hub|[l [tr [G1 [G2 [G3 [G4 G5]]]]]]]; [left; auto|right].
      exists l, tr. repeat (split; [assumption|]). split; [|intros; assumption].
      intros Hno. exfalso. destruct Hex as [j Hj]. apply (Hno j Hj). }
  unfold populate_gen.
  destruct (clear_loop_ok M HM (Z.to_nat M) 0 lookup []) as [l0 [Hc1 [Hc2 [Hc3 Hc4]]]]; try lia.
  rewrite Hc1. cbn [obind]. rewrite app_nil_r.
  set (tr0 := map (fun j => WLookup (0 + Z.of_nat j) (-1)) (rev (seq 0 (Z.to_nat M)))).
  assert (Hok0 : Forall (store_ok isact M active) tr0).
  { apply Forall_forall. intros s Hs. unfold tr0 in Hs. apply in_map_iff in Hs.
    destruct Hs as [j [<- Hj]]. apply in_rev in Hj. apply in_seq in Hj.
    cbn. split; [lia|auto]. }
  assert (Hl0 : l0 = fold_left apply_store_lookup (rev tr0) lookup).
  { unfold tr0. rewrite map_rev, rev_involutive.
    rewrite fold_clear by lia.
    apply znth_ext; [rewrite fold_zupd_len; lia|].
    intros i Hi. rewrite Hc2 in Hi. rewrite Hc4 by lia.
    rewrite fold_zupd_get.
    assert (Hexb : existsb (fun k => i =? 0 + Z.of_nat k) (seq 0 (Z.to_nat M)) = true).
    { apply existsb_exists. exists (Z.to_nat i). split; [apply in_seq; lia|lia]. }
    rewrite Hexb. destruct (0 <=? i) eqn:E1; [|lia]. destruct (i <? zlen lookup) eqn:E2; [|lia]. reflexivity. }
  destruct (count_active_ok isact N active HN Hactive (Z.to_nat N) 0 0) as [na [Hn1 [Hn2 Hn3]]]; try lia.
  rewrite Hn1. cbn [obind]. destruct (na =? 0) eqn:E.
  { exfalso. destruct Hex as [j Hj]. assert (na = 0) by lia.
    apply (proj1 Hn3 H j); [|assumption]. apply wact_range. assumption. }
  assert (Hneg : forall v, In v l0 -> v = -1).
  { intros v Hv. apply In_znth in Hv. destruct Hv as [i Hi].
    assert (Hr := znth_some_range _ _ _ _ Hi). rewrite Hc4 in Hi by lia. congruence. }
  destruct (rounds_weak lookup (S (Z.to_nat M)) 0 (mkPst l0 (repeat 0 (Z.to_nat N)) 0 tr0))
    as [Hub|[[st' [Hst [[Ht1 Ht2] [Hf1 Hf2 Hf3]]]] Hcov]]; auto.
  - constructor; cbn [p_lookup p_next p_n]; auto.
    + rewrite zlen_repeat. lia.
    + symmetry. apply countb_none. intros v Hv. rewrite (Hneg v Hv). reflexivity.
    + lia.
    + intros nx Hnx. apply repeat_spec in Hnx. lia.
    + intros c [v [Hv1 Hv2]]. rewrite (Hneg v) in Hv2; [discriminate|eapply znth_In; eauto].
    + intros j Hj. apply wact_range in Hj. destruct (j <? 0) eqn:Ej; [lia|].
      unfold owned. rewrite countb_none; [lia|]. intros v Hv. rewrite (Hneg v Hv). lia.
  - split; cbn; assumption.
  - cbn [p_n]. lia.
  - left. rewrite Hub. reflexivity.
  - right. rewrite Hst. cbn [obind]. exists (p_lookup st'), (rev (p_trace st')).
    split; [reflexivity|]. split; [assumption|]. split; [apply Forall_rev; assumption|].
    split; [assumption|]. split; [assumption|]. split; assumption.
Qed.
End Weak.

(** ** Memory layout *)
Lemma row_offs_nowrap : forall k M off, 0 <= M -> 0 <= off ->
  off + 4 * M * Z.of_nat k < two32 ->
  row_offs k M off = (map (fun i => off + 4 * M * Z.of_nat i) (seq 0 k), off + 4 * M * Z.of_nat k).
Proof.
  induction k as [|k IH]; intros M off HM Ho Hb; cbn [row_offs seq map].
  - f_equal. lia.
  - rewrite Nat2Z.inj_succ in Hb.
    assert (E : u32 (off + 4 * M) = off + 4 * M) by (unfold u32; apply Z.mod_small; nia).
    rewrite E, IH by lia. f_equal; [|lia]. f_equal; [lia|].
    rewrite <- seq_shift, map_map. apply map_ext. intro. lia.
Qed.

Lemma regions_nowrap : forall M N, 0 <= M -> 0 <= N -> 12 + 4 * M + 4 * M * N + 4 * N < two32 ->
  regions M N = (0, 12) :: (12, 4 * M) ::
    map (fun i => (12 + 4 * M + 4 * M * Z.of_nat i, 4 * M)) (seq 0 (Z.to_nat N)) ++
    [(12 + 4 * M + 4 * M * N, 4 * N)].
Proof.
  intros M N HM HN Hb. unfold regions, map_offs.
  assert (E : u32 (12 + 4 * M) = 12 + 4 * M) by (unfold u32; apply Z.mod_small; nia).
  rewrite E, row_offs_nowrap by nia. unfold lookup_off. rewrite map_map.
  rewrite Z2Nat.id by lia. reflexivity.
Qed.

Fixpoint sorted_from (lo : Z) (l : list (Z * Z)) (hi : Z) : Prop :=
  match l with
  | [] => lo <= hi
  | r :: rest => lo <= fst r /\ 0 <= snd r /\ sorted_from (fst r + snd r) rest hi
  end.

Lemma sorted_from_rows : forall M k j tail hi, 0 <= M ->
  sorted_from (12 + 4 * M + 4 * M * Z.of_nat (j + k)) tail hi ->
  sorted_from (12 + 4 * M + 4 * M * Z.of_nat j)
    (map (fun i => (12 + 4 * M + 4 * M * Z.of_nat i, 4 * M)) (seq j k) ++ tail) hi.
Proof.
  induction k as [|k IH]; intros j tail hi HM H.
  - rewrite Nat.add_0_r in H. exact H.
  - cbn [seq map app sorted_from fst snd]. split; [lia|]. split; [lia|].
    replace (12 + 4 * M + 4 * M * Z.of_nat j + 4 * M) with (12 + 4 * M + 4 * M * Z.of_nat (S j)) by lia.
    apply IH; [assumption|]. replace (S j + k)%nat with (j + S k)%nat by lia. exact H.
Qed.

Lemma sorted_from_in : forall l lo hi r, sorted_from lo l hi -> In r l ->
  lo <= fst r /\ 0 <= snd r /\ fst r + snd r <= hi.
Proof.
  assert (Hhi : forall l lo hi, sorted_from lo l hi -> lo <= hi).
  { induction l as [|a l IH]; intros lo hi H; cbn in H; [assumption|].
    destruct H as [H1 [H2 H3]]. apply IH in H3. lia. }
  induction l as [|a l IH]; intros lo hi r H Hin; [contradiction|].
  cbn in H. destruct H as [H1 [H2 H3]]. destruct Hin as [->|Hin].
  - apply Hhi in H3. lia.
  - apply (IH _ _ r) in H3; [lia|assumption].
Qed.

Lemma sorted_from_pairs : forall l lo hi i j r1 r2, sorted_from lo l hi ->
  (i < j)%nat -> nth_error l i = Some r1 -> nth_error l j = Some r2 -> fst r1 + snd r1 <= fst r2.
Proof.
  induction l as [|a l IH]; intros lo hi i j r1 r2 H Hij H1 H2; [destruct i; discriminate|].
  cbn in H. destruct H as [G1 [G2 G3]]. destruct j as [|j]; [lia|]. cbn in H2. destruct i as [|i]; cbn in H1.
  - injection H1 as ->. apply nth_error_In in H2. apply (sorted_from_in _ _ _ _ G3) in H2. lia.
  - apply (IH _ _ i j _ _ G3); auto. lia.
Qed.

Lemma layout_ok : forall M N, 0 <= M -> 0 <= N -> 24 + 4 * (M * N) + 4 * (M + N) < two32 ->
  sorted_from 0 (regions M N) (len_formula M N).
Proof.
  intros M N HM HN Hb. rewrite regions_nowrap by nia.
  assert (E : len_formula M N = 24 + 4 * (M * N) + 4 * (M + N)).
  { unfold len_formula, u32.
    rewrite (Z.mod_small (M * N)) by (unfold two32 in *; nia).
    rewrite (Z.mod_small (3 + M * N)) by (unfold two32 in *; nia).
    rewrite (Z.mod_small (M + N)) by (unfold two32 in *; nia).
    rewrite Z.mod_small by (unfold two32 in *; nia). lia. }
  rewrite E. cbn [sorted_from fst snd]. split; [lia|]. split; [lia|]. split; [lia|]. split; [lia|].
  replace (12 + 4 * M) with (12 + 4 * M + 4 * M * Z.of_nat 0) at 1 by lia.
  apply sorted_from_rows; [assumption|]. cbn [sorted_from fst snd Nat.add]. split; [|split]; nia.
Qed.

(** The arrays fit in the computed length exactly when it does not wrap. *)
Lemma layout_fits_iff : forall M N, 0 <= N <= M -> M <= 994009 ->
  (layout_fits M N (len_formula M N) = true <-> 24 + 4 * (M * N) + 4 * (M + N) < two32).
Proof.
  intros M N HN HM. unfold layout_fits. rewrite Z.leb_le.
  assert (Hb : 0 <= M * N <= 994009 * 994009) by nia.
  split.
  - intro H. destruct (Z_lt_dec (24 + 4 * (M * N) + 4 * (M + N)) two32) as [Hl|Hl]; [assumption|exfalso].
    assert (Hx : len_formula M N < two32) by (unfold len_formula, u32; apply Z.mod_pos_bound; reflexivity).
    assert (Hc : 4 * M + 4 * M * N + 4 * N + 12 < two32) by lia.
    assert (E : len_formula M N = 24 + 4 * (M * N) + 4 * (M + N) - two32).
    { unfold len_formula, u32.
      rewrite (Z.mod_small (M * N)) by (unfold two32 in *; nia).
      rewrite (Z.mod_small (3 + M * N)) by (unfold two32 in *; nia).
      rewrite (Z.mod_small (M + N)) by (unfold two32 in *; nia).
      symmetry. apply Z.mod_unique with (q := 1); unfold two32 in *; lia. }
    unfold two32 in *. lia.
  - intro H.
    assert (E : len_formula M N = 24 + 4 * (M * N) + 4 * (M + N)).
    { unfold len_formula, u32.
      rewrite (Z.mod_small (M * N)) by (unfold two32 in *; nia).
      rewrite (Z.mod_small (3 + M * N)) by (unfold two32 in *; nia).
      rewrite (Z.mod_small (M + N)) by (unfold two32 in *; nia).
      rewrite Z.mod_small by (unfold two32 in *; nia). lia. }
    rewrite E. lia.
Qed.
