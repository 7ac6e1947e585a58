(** Proofs about the Maglev populate algorithm. *)
From Verif Require Import Base Lists Prime_Model Prime_Proofs Maglev_Model Maglev_Spec.

(** [act isact active i]: target i is an existing active target. *)
Definition act (isact : Z -> bool) (active : list Z) (i : Z) : Prop :=
  exists a, znth active i = Some a /\ isact a = true.

Definition good_row (M : Z) (row : list Z) : Prop :=
  zlen row = M /\ (forall x, In x row -> 0 <= x < M) /\
  (forall c, 0 <= c < M -> exists k, znth row k = Some c).

(** number of slots of the table owned by target i. *)
Definition filledb (v : Z) : bool := 0 <=? v.

Definition filled (l : list Z) (c : Z) : Prop := exists v, znth l c = Some v /\ filledb v = true.

Definition apply_store_lookup (l : list Z) (s : store) : list Z :=
  match s with WLookup c v => zupd l c v | WActive _ _ => l end.

Lemma filled_zupd : forall l c i c0,
  0 <= i -> 0 <= c < zlen l -> filled l c0 -> filled (zupd l c i) c0.
Proof.
  intros l c i c0 Hi Hc [v [H1 H2]]. destruct (Z.eq_dec c c0).
  - subst. exists i. split; [apply znth_zupd_eq; assumption|unfold filledb; lia].
  - exists v. split; [rewrite znth_zupd_neq; assumption|assumption].
Qed.

Lemma In_zupd : forall A (l : list A) i v x, In x (zupd l i v) -> x = v \/ In x l.
Proof.
  unfold zupd. intros A l i v x H. destruct (i <? 0); [auto|].
  revert H. generalize (Z.to_nat i). clear i.
  induction l as [|y l IH]; intros [|n] H; simpl in *; auto.
  - destruct H; auto.
  - destruct H as [H|H]; auto. apply IH in H. destruct H; auto.
Qed.

Lemma fold_clear : forall (l : list Z) k i,
  0 <= i ->
  fold_left apply_store_lookup (map (fun j => WLookup (i + Z.of_nat j) (-1)) (seq 0 k)) l =
  fold_left (fun l j => zupd l (i + Z.of_nat j) (-1)) (seq 0 k) l.
Proof.
  intros l k i Hi. generalize (seq 0 k) as s. intro s. revert l.
  induction s as [|x s IH]; intros l; simpl; [reflexivity|]. rewrite IH. reflexivity.
Qed.

Lemma fold_zupd_len : forall s (l : list Z) i,
  zlen (fold_left (fun l j => zupd l (i + Z.of_nat j) (-1)) s l) = zlen l.
Proof. induction s as [|x s IH]; intros l i; simpl; [reflexivity|]. rewrite IH, zlen_zupd. reflexivity. Qed.

Lemma fold_zupd_get : forall s (l : list Z) i j,
  znth (fold_left (fun l j => zupd l (i + Z.of_nat j) (-1)) s l) j =
  if existsb (fun k => j =? i + Z.of_nat k) s && (0 <=? j) && (j <? zlen l) then Some (-1) else znth l j.
Proof.
  induction s as [|x s IH]; intros l i j; [reflexivity|].
  cbn [fold_left existsb]. rewrite IH, zlen_zupd, znth_zupd.
  set (e := existsb (fun k => j =? i + Z.of_nat k) s).
  destruct (j =? i + Z.of_nat x) eqn:E1.
  - rewrite orb_true_l, andb_true_l.
    assert (Hj : i + Z.of_nat x = j) by lia. rewrite Hj, Z.eqb_refl.
    destruct (0 <=? j) eqn:E2, (j <? zlen l) eqn:E3, e; reflexivity.
  - rewrite orb_false_l. rewrite Z.eqb_sym, E1, !andb_false_l. reflexivity.
Qed.

Section Populate.
Variable isact : Z -> bool.
Variables M N : Z.
Variable perm : list (list Z).
Variable active : list Z.
Hypothesis HM : 0 < M < two32.
Hypothesis HN : 0 <= N < two32.
Hypothesis Hperm : zlen perm = N.
Hypothesis Hactive : zlen active = N.
Hypothesis Hrows : forall i row, act isact active i -> znth perm i = Some row -> good_row M row.

Local Notation act := (act isact active).

Lemma act_range : forall i, act i -> 0 <= i < N.
Proof. intros i [a [H _]]. apply znth_some_range in H. lia. Qed.

Lemma clear_loop_ok : forall k i l tr,
  0 <= i -> i + Z.of_nat k = zlen l -> zlen l = M ->
  exists l', clear_loop k i l tr = Ok (l', map (fun j => WLookup (i + Z.of_nat j) (-1)) (rev (seq 0 k)) ++ tr) /\
    zlen l' = M /\
    (forall j, 0 <= j < i -> znth l' j = znth l j) /\
    (forall j, i <= j < M -> znth l' j = Some (-1)).
Proof using M HM.
  clear Hrows Hperm Hactive HN.
  induction k as [|k IH]; intros i l tr Hi Hk Hl; simpl.
  - exists l. repeat split; auto. intros; lia.
  - rewrite aset_in_range by lia. simpl.
    destruct (IH (i + 1) (zupd l i (-1)) (WLookup i (-1) :: tr)) as [l' [H1 [H2 [H3 H4]]]];
      try lia; try (rewrite zlen_zupd; lia).
    exists l'. split.
    + rewrite H1. f_equal. f_equal.
      rewrite <- seq_shift. rewrite map_app, !map_rev, map_map. cbn [map].
      rewrite <- app_assoc. cbn [app]. f_equal; [|f_equal; f_equal; lia].
      f_equal. apply map_ext. intro. f_equal. lia.
    + repeat split; auto.
      * intros j Hj. rewrite H3 by lia. apply znth_zupd_neq. lia.
      * intros j Hj. destruct (Z.eq_dec j i).
        -- subst. rewrite H3 by lia. apply znth_zupd_eq. lia.
        -- apply H4. lia.
Qed.

Lemma count_active_ok : forall k i n,
  0 <= i -> i + Z.of_nat k = N -> 0 <= n <= i ->
  exists n', count_active isact active k i n = Ok n' /\ n <= n' /\
    (n' = n <-> forall j, i <= j < N -> ~ act j).
Proof using isact N active HN Hactive.
  clear Hrows Hperm HM.
  induction k as [|k IH]; intros i n Hi Hk Hn; simpl.
  - exists n. repeat split; auto; [lia|]. intros; lia.
  - destruct (aget_in_range _ active i) as [a [Ha1 Ha2]]; [lia|].
    rewrite Ha1. simpl. destruct (isact a) eqn:E.
    + assert (Hu : u32 (n + 1) = n + 1) by (unfold u32; apply Z.mod_small; unfold two32 in *; lia).
      rewrite Hu. destruct (IH (i + 1) (n + 1)) as [n' [H1 [H2 H3]]]; try lia.
      exists n'. repeat split; auto; [lia|lia|].
      intro H. exfalso. apply (H i); [lia|]. exists a; auto.
    + destruct (IH (i + 1) n) as [n' [H1 [H2 H3]]]; try lia.
      exists n'. repeat split; auto.
      * intros Heq j Hj. destruct (Z.eq_dec j i).
        -- subst. intros [b [Hb1 Hb2]]. congruence.
        -- apply H3; auto. lia.
      * intro H. apply H3. intros j Hj. apply H. lia.
Qed.


Lemma find_slot_ok : forall fuel l row nx,
  zlen l = M -> good_row M row -> 0 <= nx ->
  M - nx <= Z.of_nat fuel ->
  (forall k c, 0 <= k < nx -> znth row k = Some c -> filled l c) ->
  countb filledb l < M ->
  exists c nx' v, find_slot fuel l row nx = Ok (c, nx') /\ nx <= nx' < M /\
    znth row nx' = Some c /\ znth l c = Some v /\ filledb v = false /\
    (forall k c, 0 <= k < nx' -> znth row k = Some c -> filled l c).
Proof.
  induction fuel as [|fuel IH]; intros l row nx Hl Hg Hnx Hf Hfill Hcnt.
  - exfalso. rewrite <- Hl in Hcnt. apply countb_not_full in Hcnt.
    destruct Hcnt as [c [v [Hc Hv]]].
    destruct Hg as [Hg1 [Hg2 Hg3]].
    assert (Hcr := znth_some_range _ _ _ _ Hc). rewrite Hl in Hcr.
    destruct (Hg3 c Hcr) as [k Hk].
    assert (Hkr := znth_some_range _ _ _ _ Hk). rewrite Hg1 in Hkr.
    destruct (Hfill k c) as [w [Hw1 Hw2]]; [lia|assumption|]. congruence.
  - assert (Hlt : nx < M).
    { rewrite <- Hl in Hcnt. apply countb_not_full in Hcnt.
      destruct Hcnt as [c [v [Hc Hv]]].
      destruct Hg as [Hg1 [Hg2 Hg3]].
      assert (Hcr := znth_some_range _ _ _ _ Hc). rewrite Hl in Hcr.
      destruct (Hg3 c Hcr) as [k Hk].
      assert (Hkr := znth_some_range _ _ _ _ Hk). rewrite Hg1 in Hkr.
      destruct (Z_lt_ge_dec k nx); [|lia].
      destruct (Hfill k c) as [w [Hw1 Hw2]]; [lia|assumption|]. congruence. }
    destruct Hg as [Hg1 [Hg2 Hg3]].
    destruct (aget_in_range _ row nx) as [c [Hc1 Hc2]]; [lia|].
    assert (Hcr : 0 <= c < M) by (apply Hg2; eapply znth_In; eauto).
    destruct (aget_in_range _ l c) as [v [Hv1 Hv2]]; [lia|].
    simpl. rewrite Hc1. simpl. rewrite Hv1. simpl.
    destruct (v >=? 0) eqn:E.
    + assert (Hu : u32 (nx + 1) = nx + 1) by (unfold u32; apply Z.mod_small; unfold two32 in *; lia).
      rewrite Hu.
      assert (Hfill' : forall k c0, 0 <= k < nx + 1 -> znth row k = Some c0 -> filled l c0).
      { intros k c0 Hk Hkc. destruct (Z.eq_dec k nx).
        - subst. rewrite Hc2 in Hkc. inversion Hkc; subst. exists v. split; auto.
          unfold filledb. lia.
        - apply (Hfill k); auto. lia. }
      destruct (IH l row (nx + 1)) as [c' [nx' [v' H]]]; auto; try lia.
      { repeat split; auto; apply Hg2; auto. }
      exists c', nx', v'. destruct H as [H1 [H2 H3]]. split; [assumption|]. split; [lia|assumption].
    + exists c, nx, v. repeat split; auto; try lia. unfold filledb. lia.
Qed.

(** The round invariant: [r] full rounds have been done and the targets below [i] have
    been served in the current one. *)
Record inv (r i : Z) (st : pst) : Prop := mkInv {
  inv_len : zlen (p_lookup st) = M;
  inv_next : zlen (p_next st) = N;
  inv_val : forall v, In v (p_lookup st) -> v = -1 \/ act v;
  inv_n : p_n st = countb filledb (p_lookup st);
  inv_lt : p_n st < M;
  inv_fill : forall j row nx, act j -> znth perm j = Some row -> znth (p_next st) j = Some nx ->
     0 <= nx /\ forall k c, 0 <= k < nx -> znth row k = Some c -> filled (p_lookup st) c;
  inv_own : forall j, act j -> owned (p_lookup st) j = r + (if j <? i then 1 else 0)
}.

(** Final state: full and balanced. *)
Record fin (st : pst) : Prop := mkFin {
  fin_len : zlen (p_lookup st) = M;
  fin_val : forall v, In v (p_lookup st) -> act v;
  fin_own : exists r, forall j, act j -> r <= owned (p_lookup st) j <= r + 1
}.

(** Stores allowed in the trace of a populate. *)
Definition store_ok (s : store) : Prop :=
  match s with
  | WLookup c v => 0 <= c < M /\ (v = -1 \/ act v)
  | WActive _ _ => False
  end.


Definition trace_inv (l0 : list Z) (st : pst) : Prop :=
  Forall store_ok (p_trace st) /\
  p_lookup st = fold_left apply_store_lookup (rev (p_trace st)) l0.



(** What one pass does. *)
Lemma round_ok : forall l0 k i r st,
  0 <= i -> i + Z.of_nat k = N -> inv r i st -> trace_inv l0 st ->
  exists st' b, round isact M perm active k i st = Ok (st', b) /\ trace_inv l0 st' /\
    (if b then fin st'
     else inv (r + 1) 0 st' /\ p_n st <= p_n st' /\ ((exists j, i <= j < N /\ act j) -> p_n st < p_n st')).
Proof.
  intros l0. induction k as [|k IH]; intros i r st Hi Hk Hinv Htr.
  - simpl. exists st, false. split; [reflexivity|]. split; [assumption|].
    split; [|split; [lia|intros [j [Hj _]]; lia]].
    destruct Hinv as [H1 H2 H3 H4 H5 H6 H7]. constructor; auto.
    intros j Hj. rewrite H7 by assumption.
    apply act_range in Hj. destruct (j <? i) eqn:E1; destruct (j <? 0) eqn:E2; lia.
  - simpl. destruct (aget_in_range _ active i) as [a [Ha1 Ha2]]; [lia|].
    rewrite Ha1. simpl. destruct (isact a) eqn:Ea; simpl.
    + assert (Hact : act i) by (exists a; auto).
      destruct (aget_in_range _ perm i) as [row [Hr1 Hr2]]; [lia|].
      rewrite Hr1. simpl.
      assert (Hg := Hrows i row Hact Hr2).
      pose proof Hinv as [H1 H2 H3 H4 H5 H6 H7].
      destruct (aget_in_range _ (p_next st) i) as [nx [Hn1 Hn2]]; [lia|].
      rewrite Hn1. simpl.
      destruct (H6 i row nx Hact Hr2 Hn2) as [Hnx Hfill].
      destruct (find_slot_ok (length row) (p_lookup st) row nx) as [c [nx' [v Hf]]]; auto.
      { destruct Hg as [Hg1 _]. unfold zlen in Hg1. lia. }
      { lia. }
      destruct Hf as [Hf1 [Hf2 [Hf3 [Hf4 [Hf5 Hf6]]]]].
      rewrite Hf1. simpl.
      assert (Hcr := znth_some_range _ _ _ _ Hf4).
      rewrite (aset_in_range _ (p_lookup st)) by lia. simpl.
      rewrite (aset_in_range _ (p_next st)) by lia. simpl.
      assert (Hv : v = -1).
      { destruct (H3 v) as [|Hv]; [eapply znth_In; eauto|assumption|].
        apply act_range in Hv. unfold filledb in Hf5. lia. }
      subst v.
      assert (Hu : u32 (p_n st + 1) = p_n st + 1).
      { unfold u32. apply Z.mod_small. rewrite H4.
        assert (Hcn := countb_nonneg _ filledb (p_lookup st)). unfold two32 in *. lia. }
      rewrite Hu.
      assert (Hun : u32 (nx' + 1) = nx' + 1) by (unfold u32; apply Z.mod_small; unfold two32 in *; lia).
      rewrite Hun.
      set (l' := zupd (p_lookup st) c i).
      assert (Hcnt : countb filledb l' = countb filledb (p_lookup st) + 1).
      { unfold l'. rewrite (countb_zupd _ _ _ _ _ _ Hf4).
        assert (filledb i = true) by (unfold filledb; lia). rewrite H. simpl. lia. }
      assert (Hval : forall x, In x l' -> x = -1 \/ act x).
      { intros x Hx. apply In_zupd in Hx. destruct Hx as [->|Hx]; auto. }
      assert (Hlen' : zlen l' = M) by (unfold l'; rewrite zlen_zupd; assumption).
      assert (Hown : forall j, act j -> owned l' j = r + (if j <? i + 1 then 1 else 0)).
      { intros j Hj. unfold owned, l'. rewrite (countb_zupd _ _ _ _ _ _ Hf4).
        fold (owned (p_lookup st) j). rewrite (H7 j Hj). apply act_range in Hj.
        destruct (j =? -1) eqn:E1; [lia|].
        destruct (j =? i) eqn:E2; destruct (j <? i) eqn:E3; destruct (j <? i + 1) eqn:E4; lia. }
      set (st' := mkPst l' (zupd (p_next st) i (nx' + 1)) (p_n st + 1) (WLookup c i :: p_trace st)).
      assert (Htr' : trace_inv l0 st').
      { destruct Htr as [Ht1 Ht2]. split.
        - simpl. constructor; [|assumption]. simpl. split; [lia|auto].
        - simpl. rewrite fold_left_app. simpl. rewrite <- Ht2. reflexivity. }
      destruct (p_n st + 1 =? M) eqn:EM.
      * exists st', true. split; [reflexivity|]. split; [assumption|].
        constructor; simpl; auto.
        -- intros x Hx.
           assert (Hfull : filledb x = true).
           { apply (countb_full _ filledb l'); [|assumption]. lia. }
           destruct (Hval x Hx) as [->|]; [discriminate|assumption].
        -- exists r. intros j Hj. rewrite Hown by assumption.
           destruct (j <? i + 1); lia.
      * destruct (IH (i + 1) r st') as [st'' [b [Hq1 [Hq2 Hq3]]]]; auto; try lia.
        { constructor; simpl; auto; try lia.
          - rewrite zlen_zupd. assumption.
          - intros j row' nx0 Hj Hrow' Hnx0.
            destruct (Z.eq_dec i j).
            + subst j. rewrite znth_zupd_eq in Hnx0 by lia. inversion Hnx0; subst.
              assert (row' = row) by congruence. subst row'.
              split; [lia|]. intros k0 c0 Hk0 Hkc0.
              destruct (Z.eq_dec k0 nx').
              * subst k0. assert (c0 = c) by congruence. subst c0.
                exists i. split; [apply znth_zupd_eq; lia|unfold filledb; lia].
              * apply filled_zupd; [lia|lia|]. eapply Hf6; eauto. lia.
            + rewrite znth_zupd_neq in Hnx0 by assumption.
              destruct (H6 j row' nx0 Hj Hrow' Hnx0) as [Hp1 Hp2].
              split; [assumption|]. intros k0 c0 Hk0 Hkc0.
              apply filled_zupd; [lia|lia|]. eauto. }
        exists st'', b. split; [assumption|]. split; [assumption|].
        destruct b; [assumption|].
        simpl in Hq3. destruct Hq3 as [Hq3 [Hq4 Hq5]].
        split; [assumption|]. split; [lia|]. intros; lia.
    + assert (Hnact : ~ act i) by (intros [b [Hb1 Hb2]]; congruence).
      destruct (IH (i + 1) r st) as [st'' [b [Hq1 [Hq2 Hq3]]]]; auto; try lia.
      { destruct Hinv as [H1 H2 H3 H4 H5 H6 H7]. constructor; auto.
        intros j Hj. rewrite H7 by assumption.
        destruct (Z.eq_dec i j); [subst; contradiction|].
        destruct (j <? i) eqn:E1; destruct (j <? i + 1) eqn:E2; lia. }
      exists st'', b. split; [assumption|]. split; [assumption|].
      destruct b; [assumption|]. destruct Hq3 as [Hq3 [Hq4 Hq5]].
      split; [assumption|]. split; [assumption|].
      intros [j [Hj1 Hj2]]. apply Hq5. exists j. split; [|assumption].
      destruct (Z.eq_dec i j); [subst; contradiction|lia].
Qed.

Lemma rounds_ok : forall l0 fuel r st,
  inv r 0 st -> trace_inv l0 st -> (exists j, act j) -> M - p_n st < Z.of_nat fuel ->
  exists st', rounds isact M perm active (Z.to_nat N) fuel st = Ok st' /\
              trace_inv l0 st' /\ fin st'.
Proof.
  intros l0. induction fuel as [|fuel IH]; intros r st Hinv Htr Hex Hfuel.
  - pose proof (inv_lt _ _ _ Hinv). lia.
  - simpl. destruct (round_ok l0 (Z.to_nat N) 0 r st) as [st' [b [H1 [H2 H3]]]]; auto; try lia.
    rewrite H1. simpl. destruct b.
    + exists st'. auto.
    + destruct H3 as [H3 [H4 H5]]. destruct Hex as [j Hj].
      assert (p_n st < p_n st') by (apply H5; exists j; split; [apply act_range|]; assumption).
      apply (IH (r + 1)); auto; [exists j; assumption|]. lia.
Qed.




(** Main lemma on populate. *)
Lemma populate_ok : forall lookup,
  zlen lookup = M ->
  exists l tr, populate_gen isact M N lookup perm active = Ok (l, tr) /\
    zlen l = M /\
    Forall store_ok tr /\ l = fold_left apply_store_lookup tr lookup /\
    ((forall j, ~ act j) -> forall v, In v l -> v = -1) /\
    ((exists j, act j) -> (forall v, In v l -> act v) /\
        exists r, forall j, act j -> r <= owned l j <= r + 1).
Proof.
  intros lookup Hl. unfold populate_gen.
  destruct (clear_loop_ok (Z.to_nat M) 0 lookup []) as [l0 [Hc1 [Hc2 [Hc3 Hc4]]]]; try lia.
  rewrite Hc1. cbn [obind]. rewrite app_nil_r.
  set (tr0 := map (fun j => WLookup (0 + Z.of_nat j) (-1)) (rev (seq 0 (Z.to_nat M)))).
  assert (Hok0 : Forall store_ok tr0).
  { apply Forall_forall. intros s Hs. unfold tr0 in Hs. apply in_map_iff in Hs.
    destruct Hs as [j [<- Hj]]. apply in_rev in Hj. apply in_seq in Hj.
    simpl. split; [lia|auto]. }
  assert (Hl0 : l0 = fold_left apply_store_lookup (rev tr0) lookup).
  { unfold tr0. rewrite map_rev, rev_involutive.
    rewrite fold_clear by lia.
    apply znth_ext; [rewrite fold_zupd_len; lia|].
    intros i Hi. rewrite Hc2 in Hi. rewrite Hc4 by lia.
    rewrite fold_zupd_get.
    assert (Hex : existsb (fun k => i =? 0 + Z.of_nat k) (seq 0 (Z.to_nat M)) = true).
    { apply existsb_exists. exists (Z.to_nat i). split; [apply in_seq; lia|lia]. }
    rewrite Hex. destruct (0 <=? i) eqn:E1; [|lia]. destruct (i <? zlen lookup) eqn:E2; [|lia]. reflexivity. }
  destruct (count_active_ok (Z.to_nat N) 0 0) as [na [Hn1 [Hn2 Hn3]]]; try lia.
  rewrite Hn1. cbn [obind]. destruct (na =? 0) eqn:E.
  - exists l0, (rev tr0). split; [reflexivity|]. split; [assumption|].
    split; [apply Forall_rev; assumption|]. split; [assumption|]. split.
    + intros _ v Hv. apply In_znth in Hv. destruct Hv as [i Hi].
      assert (Hr := znth_some_range _ _ _ _ Hi). rewrite Hc4 in Hi by lia. congruence.
    + intros [j Hj]. exfalso. assert (na = 0) by lia.
      apply (proj1 Hn3 H j); [apply act_range; assumption|assumption].
  - assert (Hex : exists j, act j).
    { (* some active target exists since the count is not zero *)
      assert (Hdec : forall k i, 0 <= i -> i + Z.of_nat k = N ->
                (exists j, i <= j < N /\ act j) \/ (forall j, i <= j < N -> ~ act j)).
      { induction k as [|k IH]; intros i Hi Hk; [right; intros; lia|].
        destruct (IH (i + 1)) as [[j [Hj1 Hj2]]|Hno]; try lia.
        - left. exists j. split; [lia|assumption].
        - destruct (znth_in_range _ active i) as [a Ha]; [lia|].
          destruct (isact a) eqn:Ea.
          + left. exists i. split; [lia|exists a; auto].
          + right. intros j Hj. destruct (Z.eq_dec j i); [|apply Hno; lia].
            subst. intros [b [Hb1 Hb2]]. congruence. }
      destruct (Hdec (Z.to_nat N) 0) as [[j [_ Hj]]|Hno]; try lia.
      - exists j; assumption.
      - exfalso. assert (na = 0) by (apply Hn3; assumption). lia. }
    destruct (rounds_ok lookup (S (Z.to_nat M)) 0 (mkPst l0 (repeat 0 (Z.to_nat N)) 0 tr0))
      as [st [Hr1 [[Hr2 Hr3] [Hf1 Hf2 Hf3]]]].
    { constructor; simpl.
      - assumption.
      - rewrite zlen_repeat. lia.
      - intros v Hv. left. apply In_znth in Hv. destruct Hv as [i Hi].
        assert (Hr := znth_some_range _ _ _ _ Hi). rewrite Hc4 in Hi by lia. congruence.
      - symmetry. destruct (Z.eq_dec (countb filledb l0) 0) as [He|He]; [assumption|].
        exfalso. assert (Hpos := countb_nonneg _ filledb l0).
        destruct (countb_pos _ filledb l0) as [x [Hx1 Hx2]]; [lia|].
        apply In_znth in Hx1. destruct Hx1 as [i Hi].
        assert (Hr := znth_some_range _ _ _ _ Hi). rewrite Hc4 in Hi by lia.
        inversion Hi; subst. discriminate.
      - lia.
      - intros j row nx Hj Hrow Hnx. apply act_range in Hj.
        rewrite znth_repeat in Hnx by lia. inversion Hnx. split; [lia|]. intros; lia.
      - intros j Hj. assert (Hjr := act_range j Hj). destruct (j <? 0) eqn:Ej; [lia|].
        unfold owned. destruct (Z.eq_dec (countb (Z.eqb j) l0) 0) as [He|He]; [lia|].
        exfalso. assert (Hpos := countb_nonneg _ (Z.eqb j) l0).
        destruct (countb_pos _ (Z.eqb j) l0) as [x [Hx1 Hx2]]; [lia|].
        apply In_znth in Hx1. destruct Hx1 as [i Hi].
        assert (Hr := znth_some_range _ _ _ _ Hi). rewrite Hc4 in Hi by lia.
        inversion Hi; subst. lia. }
    { split; simpl; assumption. }
    { assumption. }
    { simpl. lia. }
    rewrite Hr1. cbn [obind]. exists (p_lookup st), (rev (p_trace st)).
    split; [reflexivity|]. split; [assumption|].
    split; [apply Forall_rev; assumption|]. split; [assumption|]. split.
    + intros Hno. destruct Hex as [j Hj]. exfalso. apply (Hno j Hj).
    + intros _. split; assumption.
Qed.
End Populate.
