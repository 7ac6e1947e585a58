(** Lemmas closing the properties C02-C09 and C55-C58. *)
From Coq Require Import Znumtheory Permutation.
From Verif Require Import Base Lists Prime_Model Prime_Proofs Maglev_Model Maglev_Spec Maglev_Proofs
  MaglevInit_Proofs Config_Model Config_Spec Config_Proofs.

Lemma make_rows_short : forall M N rand row, 0 <= M < two32 -> In row (make_rows M N rand) -> zlen row = M.
Proof.
  intros M N rand row HM Hin. unfold make_rows in Hin. apply in_map_iff in Hin.
  destruct Hin as [i [<- _]]. unfold zlen. rewrite make_row_length. lia.
Qed.

Lemma init_facts : forall m n rand s, init_args m n rand -> cmdInit m n rand = Ok s ->
  wf s /\ synced s /\ short_rows s /\ prime (mM s) /\ 3 <= mM s <= 994009 /\ mN s = n /\ n <= mM s /\
  mperm s = make_rows (mM s) n rand /\ mactive s = repeat (-1) (Z.to_nat n).
Proof.
  intros m n rand s [Hm [Hn Hr]] H. apply cmdInit_wf in H; auto.
  destruct H as [W1 [W2 [W3 [W4 [W5 [W6 [W7 [W8 W9]]]]]]]].
  repeat (split; [assumption|]). split.
  - intros row Hin. rewrite W7 in Hin. apply make_rows_short in Hin; unfold two32 in *; lia.
  - auto 10.
Qed.

Lemma reached_facts : forall m n rand cs s, init_args m n rand -> reached m n rand cs s ->
  wf s /\ synced s /\ short_rows s /\ prime (mM s) /\ 3 <= mM s <= 994009 /\ mN s = n /\ n <= mM s /\
  mperm s = make_rows (mM s) n rand.
Proof.
  intros m n rand cs s Ha [s0 [H1 H2]].
  destruct (init_facts _ _ _ _ Ha H1) as [W1 [W2 [W3 [W4 [W5 [W6 [W7 [W8 W9]]]]]]]].
  destruct (run_hist_wf _ _ _ W1 W2 H2) as [V1 [V2 [V3 [V4 V5]]]].
  rewrite V3, V4, V5. repeat (split; [assumption|]). split; [eapply short_rows_eq; eauto|]. auto 10.
Qed.

Lemma states_perm : forall tr m s, In s (states m tr) -> mperm s = mperm m.
Proof.
  induction tr as [|t tr IH]; intros m s H; cbn [states In] in H.
  - destruct H as [<-|[]]. reflexivity.
  - destruct H as [<-|H]; [reflexivity|]. apply IH in H. rewrite H. destruct t; reflexivity.
Qed.

Lemma creach_perm : forall a b, creach a b -> mperm b = mperm a.
Proof.
  intros a b H. induction H; [reflexivity|]. apply states_perm in H1. congruence.
Qed.

(** *** C02 *)
Lemma slots_active : forall m n rand cs s, init_args m n rand -> reached m n rand cs s ->
  zlen (mlookup s) = mM s /\
  ((exists j, is_active s j) -> forall c, 0 <= c < mM s ->
      exists i, znth (mlookup s) c = Some i /\ is_active s i) /\
  ((forall j, ~ is_active s j) -> forall c, 0 <= c < mM s -> znth (mlookup s) c = Some (-1)).
Proof.
  intros m n rand cs s Ha Hr. destruct (reached_facts _ _ _ _ _ Ha Hr) as [W1 [W2 [W3 _]]].
  destruct (synced_facts s W1 W3 W2) as [F1 F2].
  pose proof (wf_lookup _ W1) as Hl. split; [assumption|]. split.
  - intros Hex c Hc. destruct (znth_in_range _ (mlookup s) c) as [i Hi]; [lia|].
    exists i. split; [assumption|]. apply F2; [assumption|]. eapply znth_In; eauto.
  - intros Hno c Hc. destruct (znth_in_range _ (mlookup s) c) as [i Hi]; [lia|].
    rewrite Hi. f_equal. apply F1; [assumption|]. eapply znth_In; eauto.
Qed.

(** *** C03 *)
Fixpoint acts_from (i : Z) (l : list Z) : list Z :=
  match l with
  | [] => []
  | a :: r => if dyn_active a then i :: acts_from (i + 1) r else acts_from (i + 1) r
  end.

Lemma acts_from_zlen : forall l i, zlen (acts_from i l) = countb dyn_active l.
Proof.
  unfold countb. induction l as [|a l IH]; intro i; cbn [acts_from filter]; [reflexivity|].
  destruct (dyn_active a); [|apply IH]. unfold zlen in *. cbn [length]. rewrite !Nat2Z.inj_succ.
  rewrite IH. reflexivity.
Qed.

Lemma znth_cons : forall A (a : A) l i, znth (a :: l) i = if i =? 0 then Some a else znth l (i - 1).
Proof.
  intros A a l i. unfold znth. destruct (i <? 0) eqn:E1.
  - destruct (i =? 0) eqn:E2; [lia|]. destruct (i - 1 <? 0) eqn:E3; [reflexivity|lia].
  - destruct (i =? 0) eqn:E2.
    + assert (i = 0) by lia. subst. reflexivity.
    + destruct (i - 1 <? 0) eqn:E3; [lia|].
      replace (Z.to_nat i) with (S (Z.to_nat (i - 1))) by lia. reflexivity.
Qed.

Lemma acts_from_In : forall l i j, In j (acts_from i l) <->
  exists a, znth l (j - i) = Some a /\ dyn_active a = true.
Proof.
  induction l as [|a l IH]; intros i j; cbn [acts_from].
  - split; [contradiction|]. intros [a [H _]]. unfold znth in H. destruct (j - i <? 0); [discriminate|].
    destruct (Z.to_nat (j - i)); discriminate.
  - assert (Hrec : In j (acts_from (i + 1) l) <-> exists b, znth l (j - i - 1) = Some b /\ dyn_active b = true).
    { rewrite IH. replace (j - (i + 1)) with (j - i - 1) by lia. reflexivity. }
    assert (Hout : j = i -> ~ exists b, znth l (j - i - 1) = Some b /\ dyn_active b = true).
    { intros -> [b [Hb _]]. apply znth_some_range in Hb. lia. }
    rewrite znth_cons. destruct (dyn_active a) eqn:E.
    + cbn [In]. rewrite Hrec. destruct (j - i =? 0) eqn:E2.
      * split; [intros _; exists a; auto|]. intros _. left. lia.
      * split; [|tauto]. intros [He|H]; [lia|assumption].
    + rewrite Hrec. destruct (j - i =? 0) eqn:E2; [|reflexivity].
      split; [intro H; exfalso; apply Hout; [lia|assumption]|]. intros [b [Hb1 Hb2]]. congruence.
Qed.

Lemma acts_from_NoDup : forall l i, NoDup (acts_from i l).
Proof.
  induction l as [|a l IH]; intro i; cbn [acts_from]; [constructor|].
  destruct (dyn_active a); [|apply IH]. constructor; [|apply IH].
  intro H. apply acts_from_In in H. destruct H as [b [Hb _]]. apply znth_some_range in Hb. lia.
Qed.

Fixpoint sumz (f : Z -> Z) (l : list Z) : Z := match l with [] => 0 | a :: r => f a + sumz f r end.

Lemma owned_cons : forall x l j, owned (x :: l) j = (if j =? x then 1 else 0) + owned l j.
Proof.
  intros. unfold owned, countb. cbn [filter]. destruct (j =? x); [|reflexivity].
  unfold zlen. cbn [length]. lia.
Qed.

Lemma sumz_ext : forall f g l, (forall x, In x l -> f x = g x) -> sumz f l = sumz g l.
Proof.
  intros f g l H. induction l as [|a l IH]; [reflexivity|]. cbn [sumz].
  rewrite (H a) by (left; reflexivity). rewrite IH; [reflexivity|]. intros; apply H; right; assumption.
Qed.

Lemma sumz_plus : forall f g l, sumz (fun j => f j + g j) l = sumz f l + sumz g l.
Proof. intros f g l. induction l as [|a l IH]; cbn [sumz]; lia. Qed.

Lemma sumz_indicator : forall A x, NoDup A -> In x A -> sumz (fun j => if j =? x then 1 else 0) A = 1.
Proof.
  induction A as [|a A IH]; intros x Hnd Hin; [contradiction|]. inversion Hnd; subst. cbn [sumz].
  destruct (a =? x) eqn:E.
  - assert (a = x) by lia. subst.
    assert (Hz : sumz (fun j => if j =? x then 1 else 0) A = sumz (fun _ => 0) A).
    { apply sumz_ext. intros y Hy. destruct (y =? x) eqn:Ey; [|reflexivity].
      assert (y = x) by lia. subst. contradiction. }
    rewrite Hz. assert (H0 : forall l, sumz (fun _ => 0) l = 0) by (induction l; cbn [sumz]; lia). rewrite H0. lia.
  - destruct Hin as [->|Hin]; [lia|]. rewrite IH; auto.
Qed.

Lemma sum_owned : forall A l, NoDup A -> (forall x, In x l -> In x A) -> sumz (owned l) A = zlen l.
Proof.
  intros A l Hnd. induction l as [|x l IH]; intro H.
  - unfold owned, countb. cbn [filter]. unfold zlen. cbn [length].
    clear. induction A as [|a A IH]; cbn [sumz]; [reflexivity|]. rewrite IH. reflexivity.
  - rewrite (sumz_ext _ (fun j => (if j =? x then 1 else 0) + owned l j)) by (intros; apply owned_cons).
    rewrite sumz_plus, sumz_indicator, IH; auto.
    + unfold zlen. cbn [length]. lia.
    + intros y Hy. apply H. right. assumption.
    + apply H. left. reflexivity.
Qed.

Lemma sumz_bounds : forall f A r, (forall j, In j A -> r <= f j <= r + 1) ->
  r * zlen A <= sumz f A <= (r + 1) * zlen A /\
  (forall j, In j A -> f j = r -> sumz f A < (r + 1) * zlen A) /\
  (forall j, In j A -> f j = r + 1 -> r * zlen A < sumz f A).
Proof.
  intros f A r. induction A as [|a A IH]; intro H.
  - cbn [sumz]. unfold zlen. cbn [length]. split; [lia|]. split; intros j [].
  - destruct IH as [I1 [I2 I3]]; [intros; apply H; right; assumption|].
    assert (Ha : r <= f a <= r + 1) by (apply H; left; reflexivity).
    assert (Hz : zlen (a :: A) = zlen A + 1) by (unfold zlen; cbn [length]; lia).
    rewrite Hz. cbn [sumz]. split; [lia|]. split.
    + intros j [<-|Hj] Hf; [lia|]. specialize (I2 j Hj Hf). lia.
    + intros j [<-|Hj] Hf; [lia|]. specialize (I3 j Hj Hf). lia.
Qed.

Lemma balance : forall m n rand cs s, init_args m n rand -> reached m n rand cs s ->
  forall j, is_active s j ->
  let k := n_active s in
  0 < k <= mM s /\ 1 <= mM s / k /\
  mM s / k <= owned (mlookup s) j <= (mM s + k - 1) / k /\
  (forall j', is_active s j' -> Z.abs (owned (mlookup s) j - owned (mlookup s) j') <= 1).
Proof.
  intros m n rand cs s Ha Hr j Hj k. destruct (reached_facts _ _ _ _ _ Ha Hr) as [W1 [W2 [W3 [W4 [W5 [W6 [W7 _]]]]]]].
  destruct (synced_facts s W1 W3 W2) as [_ F2].
  destruct F2 as [F2 [r F3]]; [exists j; assumption|].
  set (A := acts_from 0 (mactive s)).
  assert (HA : forall x, In x A <-> is_active s x).
  { intro x. unfold A. rewrite acts_from_In. rewrite Z.sub_0_r. rewrite is_active_act. reflexivity. }
  assert (Hk : k = zlen A) by (unfold k, n_active, A; rewrite acts_from_zlen; reflexivity).
  assert (Hsum : sumz (owned (mlookup s)) A = mM s).
  { rewrite sum_owned; [apply (wf_lookup _ W1)|apply acts_from_NoDup|].
    intros x Hx. apply HA. apply F2. assumption. }
  destruct (sumz_bounds (owned (mlookup s)) A r) as [B1 [B2 B3]].
  { intros x Hx. apply F3. apply HA. assumption. }
  rewrite Hsum, <- Hk in *.
  assert (Hkpos : 0 < k).
  { rewrite Hk. assert (Hin : In j A) by (apply HA; assumption). destruct A; [contradiction|].
    unfold zlen. cbn [length]. lia. }
  assert (HkM : k <= mM s).
  { assert (Hc := countb_le _ dyn_active (mactive s)). change (countb dyn_active (mactive s)) with k in Hc.
    rewrite (wf_active _ W1) in Hc. lia. }
  split; [lia|]. split; [apply Z.div_le_lower_bound; lia|].
  assert (Hin : In j A) by (apply HA; assumption).
  assert (Hjr := F3 j Hj). split.
  - destruct (Z.eq_dec (owned (mlookup s) j) r) as [E|E].
    + specialize (B2 j Hin E). rewrite E. split.
      * assert (mM s / k < r + 1) by (apply Z.div_lt_upper_bound; lia). lia.
      * apply Z.div_le_lower_bound; lia.
    + assert (E' : owned (mlookup s) j = r + 1) by lia. specialize (B3 j Hin E'). rewrite E'. split.
      * apply Z.lt_succ_r. apply Z.div_lt_upper_bound; lia.
      * apply Z.div_le_lower_bound; lia.
  - intros j' Hj'. assert (Hj'r := F3 j' Hj'). lia.
Qed.

(** *** C04 *)
Lemma synced_function : forall s1 s2, wf s1 -> wf s2 -> synced s1 -> synced s2 ->
  mM s1 = mM s2 -> mN s1 = mN s2 -> mperm s1 = mperm s2 ->
  (forall i, is_active s1 i <-> is_active s2 i) -> mlookup s1 = mlookup s2.
Proof.
  intros s1 s2 A1 B1 [tr1 A2] [tr2 B2] E1 E2 E3 Hact.
  assert (Hmap : map dyn_active (mactive s1) = map dyn_active (mactive s2)).
  { apply znth_ext.
    - rewrite !zlen_map, (wf_active _ A1), (wf_active _ B1). congruence.
    - intros i Hi. rewrite zlen_map, (wf_active _ A1) in Hi. rewrite !znth_map.
      destruct (znth_in_range _ (mactive s1) i) as [a Hia]; [rewrite (wf_active _ A1); assumption|].
      destruct (znth_in_range _ (mactive s2) i) as [b Hib]; [rewrite (wf_active _ B1); lia|].
      rewrite Hia, Hib. cbn [option_map]. f_equal.
      specialize (Hact i). unfold is_active in Hact. rewrite Hia, Hib in Hact.
      unfold dyn_active. destruct (0 <=? a) eqn:Ea.
      + assert (Hx : exists fw, Some b = Some fw /\ 0 <= fw) by (apply Hact; exists a; split; [reflexivity|lia]).
        destruct Hx as [fw [Hx1 Hx2]]. injection Hx1 as <-. lia.
      + destruct (0 <=? b) eqn:Eb; [|reflexivity].
        assert (Hx : exists fw, Some a = Some fw /\ 0 <= fw) by (apply Hact; exists b; split; [reflexivity|lia]).
        destruct Hx as [fw [Hx1 Hx2]]. injection Hx1 as <-. lia. }
  assert (E : populate_gen dyn_active (mM s1) (mN s1) (mlookup s1) (mperm s1) (mactive s1) =
              populate_gen dyn_active (mM s2) (mN s2) (mlookup s2) (mperm s2) (mactive s2)).
  { rewrite E1, E2, E3.
    rewrite (populate_active_indep _ _ _ _ _ _ _ Hmap).
    pose proof (wf_M _ B1). pose proof (wf_lookup _ A1). pose proof (wf_lookup _ B1).
    apply populate_lookup_indep; lia. }
  rewrite A2, B2 in E. congruence.
Qed.

Lemma table_function : forall m n rand cs1 cs2 s1 s2, init_args m n rand ->
  reached m n rand cs1 s1 -> reached m n rand cs2 s2 ->
  (forall i, is_active s1 i <-> is_active s2 i) -> mlookup s1 = mlookup s2.
Proof.
  intros m n rand cs1 cs2 s1 s2 Ha [s0 [H1 H2]] [s0' [H1' H3]] Hact.
  assert (s0' = s0) by congruence. subst s0'.
  destruct (init_facts _ _ _ _ Ha H1) as [W1 [W2 _]].
  destruct (run_hist_wf _ _ _ W1 W2 H2) as [A1 [A2 [A3 [A4 A5]]]].
  destruct (run_hist_wf _ _ _ W1 W2 H3) as [B1 [B2 [B3 [B4 B5]]]].
  apply synced_function; auto; congruence.
Qed.

(** *** C55, the part which is true *)
Lemma change_repairs : forall m n rand s0 sk c s' tr cs s2,
  init_args m n rand -> cmdInit m n rand = Ok s0 -> creach s0 sk ->
  run_cmd sk c = Ok (s', tr) -> tr <> [] ->
  reached m n rand cs s2 -> (forall i, is_active s' i <-> is_active s2 i) -> mlookup s' = mlookup s2.
Proof.
  intros m n rand s0 sk c s' tr cs s2 Ha H0 Hk Hc Htr [s0' [H1' H3]] Hact.
  assert (s0' = s0) by congruence. subst s0'.
  destruct (init_facts _ _ _ _ Ha H0) as [W1 [W2 [W3 _]]].
  assert (R0 : readable s0) by (apply synced_readable; auto).
  destruct (creach_inv _ _ Hk R0 W3) as [R1 [S1 [E1 E2]]].
  pose proof (creach_perm _ _ Hk) as E3.
  destruct (run_cmd_wf_gen _ _ _ _ (rd_wf _ R1) Hc) as [A1 [A2 [A3 [A4 A5]]]].
  destruct (run_hist_wf _ _ _ W1 W2 H3) as [B1 [B2 [B3 [B4 B5]]]].
  apply synced_function; auto; congruence.
Qed.

(** *** C06: totality, and the run off a row *)
Lemma hist_total : forall cs s, wf s -> synced s -> good_rows s -> mN s <= 2 ^ 31 ->
  Forall cmd_int cs -> exists s', run_hist s cs = Ok s'.
Proof.
  induction cs as [|c cs IH]; intros s Hw Hs Hg Hn Hc; cbn [run_hist].
  - exists s. reflexivity.
  - inversion Hc; subst. destruct (run_cmd_total s c Hw Hg Hn H1) as [[[s1 tr] E]|E]; rewrite E.
    + destruct (run_cmd_wf _ _ _ _ Hw Hs E) as [W1 [W2 [W3 [W4 W5]]]].
      apply IH; auto; [eapply good_rows_eq; eauto|lia].
    + apply IH; auto.
Qed.

Lemma init_good_rows : forall m n rand s, init_args m n rand -> cmdInit m n rand = Ok s ->
  mM s <= 65536 -> good_rows s.
Proof.
  intros m n rand s Ha H Hle row Hin.
  destruct (init_facts _ _ _ _ Ha H) as [W1 _]. destruct Ha as [Hm [Hn Hr]].
  apply permutation_good_row; [apply (wf_M _ W1)|].
  apply (cmdInit_good_rows m n rand s); auto. intro k. apply Hr.
Qed.

Lemma commands_total : forall m n rand cs s0, init_args m n rand -> cmdInit m n rand = Ok s0 ->
  mM s0 <= 65536 -> Forall cmd_int cs -> exists s, run_hist s0 cs = Ok s.
Proof.
  intros m n rand cs s0 Ha H Hle Hc.
  destruct (init_facts _ _ _ _ Ha H) as [W1 [W2 [W3 [W4 [W5 [W6 [W7 _]]]]]]].
  apply hist_total; auto; [eapply init_good_rows; eauto|lia].
Qed.

(** The witness for M = 65537: offset 0, skip 65536. *)
Definition bad_rand (k : nat) : Z := if Nat.even k then 0 else 65535.

Lemma prime_65537 : prime 65537.
Proof.
  destruct (primeBelow_correct 65537) as [q [Hq1 [Hq2 _]]]; [lia|].
  assert (E : primeBelow 65537 = Ok 65537) by (vm_compute; reflexivity).
  assert (q = 65537) by congruence. subst. assumption.
Qed.

Lemma bad_row_missing : ~ In 1 (make_row 65537 0 65535).
Proof.
  intro H. unfold make_row in H. apply in_map_iff in H. destruct H as [j [Hj Hin]]. apply in_seq in Hin.
  change (row_offset 65537 0) with 0 in Hj. change (row_skip 65537 65535) with 65536 in Hj.
  assert (Hjr : 0 <= Z.of_nat j < 65537) by lia. revert Hj Hjr. generalize (Z.of_nat j) as z. intros z Hz Hzr.
  destruct (Z.eq_dec z 65536) as [->|Hne].
  - vm_compute in Hz. discriminate.
  - unfold row_entry, u32, two32 in Hz.
    rewrite (Z.mod_small (z * 65536)) in Hz by lia. rewrite (Z.mod_small (0 + z * 65536)) in Hz by lia.
    assert (Hx : (0 + z * 65536) mod 65537 = (0 + 65536 * 65536) mod 65537).
    { rewrite Hz. reflexivity. }
    apply row_entry_inj in Hx; [lia|apply prime_65537|lia|lia|lia].
Qed.

Lemma cmdInit_65537 : exists s, cmdInit 65537 1 bad_rand = Ok s /\ mM s = 65537 /\ mN s = 1 /\
  mperm s = [make_row 65537 0 65535] /\ mactive s = [-1].
Proof.
  destruct (cmdInit_ok 65537 1 bad_rand 65537) as [s [H1 [_ [_ [H4 [H5 [H6 [H7 _]]]]]]]].
  - unfold two32; lia.
  - unfold two32; lia.
  - change (Z.max 65537 3) with 65537. vm_compute. reflexivity.
  - lia.
  - unfold two32; lia.
  - exists s. repeat (split; [assumption|]). assumption.
Qed.

Lemma bad_args : init_args 65537 1 bad_rand.
Proof. unfold init_args, bad_rand. repeat split; try lia; destruct (Nat.even k); lia. Qed.

Lemma activate_65537_UB : exists s, cmdInit 65537 1 bad_rand = Ok s /\ run_cmd s (Activate [7]) = UB.
Proof.
  destruct cmdInit_65537 as [s [H1 [H2 [H3 [H4 H5]]]]]. exists s. split; [assumption|].
  destruct (init_facts _ _ _ _ bad_args H1) as [W1 [W2 [W3 _]]].
  cbn [run_cmd]. rewrite H3, H5.
  change (activate_args 1 [-1] [7] false) with (@Ok (list Z * bool * list store) ([7], true, [WActive 0 7])).
  cbn [obind]. unfold finish, magDataDyn_populate. cbn [with_active mM mN mlookup mperm mactive].
  destruct W1 as [V1 V2 V3 V4 V5].
  destruct (populate_weak dyn_active (mM s) (mN s) (mperm s) [7] V1 V2 V4) with (lookup := mlookup s)
    as [[_ Hub]|[l [tr [P1 [P2 [P3 [P4 [P5 P6]]]]]]]]; auto.
  - rewrite Hub. reflexivity.
  - exfalso. assert (Hact : act dyn_active [7] 0) by (exists 7; split; reflexivity).
    destruct P6 as [_ [_ Hcov]]; [exists 0; assumption|].
    destruct (Hcov 1) as [j [row [Q1 [Q2 Q3]]]]; [lia|].
    rewrite H4 in Q2. apply znth_In in Q2. destruct Q2 as [<-|[]]. apply bad_row_missing. assumption.
Qed.

Lemma bad_row_not_permutation : exists s, cmdInit 65537 1 bad_rand = Ok s /\
  exists row, In row (mperm s) /\ ~ Permutation row (slots (mM s)).
Proof.
  destruct cmdInit_65537 as [s [H1 [H2 [H3 [H4 H5]]]]]. exists s. split; [assumption|].
  exists (make_row 65537 0 65535). rewrite H4, H2. split; [left; reflexivity|].
  intro P. apply bad_row_missing. apply (Permutation_in _ (Permutation_sym P)). apply in_slots. lia.
Qed.

(** *** C08 *)
Lemma owned_pos_slot : forall l j, 1 <= owned l j -> exists c, znth l c = Some j.
Proof.
  intros l j H. unfold owned in H. destruct (countb_pos _ (Z.eqb j) l) as [x [H1 H2]]; [lia|].
  assert (j = x) by lia. subst. apply In_znth. assumption.
Qed.

Lemma set_semantics : forall m n rand cs s, init_args m n rand -> reached m n rand (map to_cmd cs) s ->
  let S := s_hist n cs in
  NoDup S /\ Permutation S (filter (fun fw => 0 <=? fw) (mactive s)) /\
  (forall hash, 0 <= hash ->
     exists v, mag_lookup s hash = Ok v /\ (S = [] -> v < 0) /\ (S <> [] -> In v S)) /\
  (forall fw, In fw S -> exists hash, 0 <= hash < 2 ^ 32 /\ mag_lookup s hash = Ok fw).
Proof.
  intros m n rand cs s Ha Hr S. pose proof Hr as [s0 [H1 H2]].
  destruct (init_facts _ _ _ _ Ha H1) as [W1 [W2 [W3 [W4 [W5 [W6 [W7 [W8 W9]]]]]]]].
  assert (Hrep : represents S (mactive s)).
  { unfold S, s_hist. rewrite <- W6 at 1. eapply run_hist_rep_ok; eauto. split; [constructor|].
    rewrite W9. assert (E : fws_of (repeat (-1) (Z.to_nat n)) = []).
    { unfold fws_of. generalize (Z.to_nat n). induction n0; cbn; auto. }
    rewrite E. constructor. }
  destruct (slots_active _ _ _ _ _ Ha Hr) as [L1 [L2 L3]].
  destruct (reached_facts _ _ _ _ _ Ha Hr) as [V1 [V2 [V3 [V4 [V5 [V6 [V7 _]]]]]]].
  split; [apply Hrep|]. split; [apply Hrep|].
  assert (Hact : forall j fw, znth (mactive s) j = Some fw -> 0 <= fw -> In fw S).
  { intros j fw Hj Hf. apply (rep_In _ _ _ Hrep). split; [eapply znth_In; eauto|assumption]. }
  assert (Hex : S <> [] -> exists j, is_active s j).
  { intro Hne. destruct S as [|fw S'] eqn:ES; [contradiction|].
    assert (Hin : In fw (mactive s) /\ 0 <= fw) by (apply (rep_In _ _ _ Hrep); left; reflexivity).
    destruct Hin as [Hin Hf]. apply In_znth in Hin. destruct Hin as [j Hj]. exists j, fw. auto. }
  assert (Hno : S = [] -> forall j, ~ is_active s j).
  { intros He j [fw [Hj Hf]]. apply (Hact j fw) in Hj; [|assumption]. rewrite He in Hj. contradiction. }
  split.
  - intros hash Hh. unfold mag_lookup.
    assert (Hm : 0 <= hash mod mM s < mM s) by (apply Z.mod_pos_bound; lia).
    destruct (list_eq_dec Z.eq_dec S []) as [He|Hne].
    + assert (E : aget (mlookup s) (hash mod mM s) = Ok (-1)) by (apply aget_ok; apply L3; auto).
      rewrite E. cbn [obind]. change (-1 >=? 0) with false. exists (-1). split; [reflexivity|].
      split; [lia|]. intro; contradiction.
    + destruct (L2 (Hex Hne) (hash mod mM s) Hm) as [i [Hi [fw [Hfw1 Hfw2]]]].
      assert (E : aget (mlookup s) (hash mod mM s) = Ok i) by (apply aget_ok; assumption).
      rewrite E. cbn [obind]. pose proof (znth_some_range _ _ _ _ Hfw1).
      destruct (i >=? 0) eqn:Ei; [|lia]. exists fw. split; [apply aget_ok; assumption|].
      split; [intro; contradiction|]. intros _. eapply Hact; eauto.
  - intros fw Hin. assert (Hf : In fw (mactive s) /\ 0 <= fw) by (apply (rep_In _ _ _ Hrep); assumption).
    destruct Hf as [Hf1 Hf2]. apply In_znth in Hf1. destruct Hf1 as [j Hj].
    assert (Hja : is_active s j) by (exists fw; auto).
    destruct (balance _ _ _ _ _ Ha Hr j Hja) as [_ [B1 [B2 _]]].
    destruct (owned_pos_slot (mlookup s) j) as [c Hc]; [lia|].
    pose proof (znth_some_range _ _ _ _ Hc) as Hcr. rewrite L1 in Hcr.
    exists c. split; [lia|]. unfold mag_lookup. rewrite Z.mod_small by lia.
    assert (E : aget (mlookup s) c = Ok j) by (apply aget_ok; assumption). rewrite E. cbn [obind].
    pose proof (znth_some_range _ _ _ _ Hj). destruct (j >=? 0) eqn:Ej; [|lia]. apply aget_ok. assumption.
Qed.

(** *** C09 *)
Lemma reached_readable : forall m n rand cs s, init_args m n rand -> reached m n rand cs s ->
  readable s /\ short_rows s.
Proof.
  intros m n rand cs s Ha Hr. destruct (reached_facts _ _ _ _ _ Ha Hr) as [W1 [W2 [W3 _]]].
  split; [apply synced_readable; auto|assumption].
Qed.

Lemma reader_during : forall m n rand cs s c s' tr s1 s2 hash,
  init_args m n rand -> reached m n rand cs s -> run_cmd s c = Ok (s', tr) ->
  In s1 (states s tr) -> In s2 (states s tr) -> 0 <= hash ->
  exists v, read2 s1 s2 hash = Ok v /\
    (v < 0 \/ In v (mactive s) \/ In v (mactive s')).
Proof.
  intros m n rand cs s c s' tr s1 s2 hash Ha Hr Hc H1 H2 Hh.
  destruct (reached_readable _ _ _ _ _ Ha Hr) as [R1 R2]. eapply read2_during; eauto.
Qed.

Lemma reader_crash : forall m n rand s0 s1 s2 hash,
  init_args m n rand -> cmdInit m n rand = Ok s0 -> creach s0 s1 -> creach s1 s2 -> 0 <= hash ->
  exists v, read2 s1 s2 hash = Ok v /\ (v < 0 \/ In v (mactive s2)).
Proof.
  intros m n rand s0 s1 s2 hash Ha H0 H1 H2 Hh.
  destruct (init_facts _ _ _ _ Ha H0) as [W1 [W2 [W3 _]]].
  assert (R0 : readable s0) by (apply synced_readable; auto).
  destruct (creach_inv _ _ H1 R0 W3) as [R1 [S1 [E1 E2]]].
  destruct (creach_inv _ _ H2 R1 S1) as [R2 [S2 [E3 E4]]].
  apply read2_safe; auto.
Qed.

Lemma active_frozen : forall tr m s,
  Forall (fun s => match s with WLookup _ _ => True | WActive _ _ => False end) tr ->
  In s (states m tr) -> mactive s = mactive m.
Proof.
  induction tr as [|t tr IH]; intros m s H Hin; cbn [states In] in Hin.
  - destruct Hin as [<-|[]]. reflexivity.
  - destruct Hin as [<-|Hin]; [reflexivity|]. inversion H; subst. destruct t; [|contradiction].
    apply IH in Hin; auto.
Qed.

(** Once the first store of deactivate is done the target is gone for every reader. *)
Lemma cleared_stays_cleared : forall s S fw s' t tr s1 s2 hash,
  readable s -> short_rows s -> represents S (mactive s) -> 0 <= fw ->
  run_cmd s (Deactivate [fw]) = Ok (s', t :: tr) ->
  In s2 (states (apply_store s t) tr) -> mM s1 = mM s -> mN s1 = mN s -> readable s1 -> 0 <= hash ->
  exists v, read2 s1 s2 hash = Ok v /\ v <> fw.
Proof.
  intros s S fw s' t tr s1 s2 hash Hr Hsh Hrep Hfw Hc Hs2 E1 E2 Hr1 Hh.
  pose proof (rd_wf _ Hr) as Hwf. pose proof (wf_active _ Hwf) as Ha.
  destruct (run_cmd_trace _ _ _ _ Hwf Hsh Hc) as [_ HT].
  inversion HT; subst.
  assert (Rs : readable (apply_store s t)) by (eapply apply_store_readable; eauto).
  destruct (apply_store_params s t) as [P1 [P2 P3]].
  assert (HT2 : Forall (safe_store (mM (apply_store s t)) (mN (apply_store s t)) (mactive s')) tr)
    by (rewrite P1, P2; assumption).
  destruct (states_inv _ _ _ _ Rs HT2 Hs2) as [R2 [Q1 [Q2 [Q3 Q4]]]].
  destruct (read2_safe s1 s2 hash) as [v [V1 V2]]; auto; [congruence|].
  exists v. split; [assumption|]. intro Hv. subst v. destruct V2 as [V2|V2]; [lia|].
  cbn [run_cmd] in Hc. cbn [deactivate_args] in Hc.
  destruct (scan_eq_spec (mactive s) fw (Z.to_nat (mN s)) 0) as [i [I1 I2]];
    [lia|pose proof (wf_N _ Hwf); lia|intros; lia|].
  rewrite I1 in Hc. cbn [obind] in Hc. destruct I2 as [[-> I2]|[I2 I3]].
  - change (0 <=? -1) with false in Hc. cbn [obind] in Hc. unfold finish in Hc. discriminate.
  - destruct (0 <=? i) eqn:Ei; [|lia]. rewrite aset_in_range in Hc by lia. cbn [obind] in Hc.
    set (a1 := zupd (mactive s) i (-1)) in *.
    assert (Hw1 : wf (with_active s a1)).
    { apply wf_with_active; [assumption|]. unfold a1. rewrite zlen_zupd. assumption. }
    unfold finish in Hc. destruct (magDataDyn_populate (with_active s a1)) as [[s3 tr3]| | |] eqn:Ep; try discriminate.
    cbn [obind app] in Hc. injection Hc as <- <- <-.
    unfold magDataDyn_populate in Ep. cbn [with_active mM mN mlookup mperm mactive] in Ep.
    destruct Hw1 as [X1 X2 X3 X4 X5].
    destruct (populate_weak dyn_active (mM s) (mN s) (mperm s) a1 X1 X2 X4 X5 Hsh (mlookup s) X3)
      as [[_ Hub]|[l [trp [Y1 [Y2 [Y3 _]]]]]]; [rewrite Hub in Ep; discriminate|].
    rewrite Y1 in Ep. cbn [obind] in Ep. injection Ep as <- <-.
    assert (Hfz : mactive s2 = mactive (apply_store s (WActive i (-1)))).
    { eapply active_frozen; [|exact Hs2]. eapply Forall_impl; [|exact Y3]. intros [c v|k v] Hok; [exact I|exact Hok]. }
    cbn [apply_store mactive] in Hfz. fold a1 in Hfz. rewrite Hfz in V2.
    destruct Hrep as [N1 N2].
    assert (P : Permutation (fws_of (mactive s)) (fw :: fws_of a1)) by (apply (fws_zupd_remove _ _ _ _ I3); lia).
    assert (Hnd : NoDup (fw :: fws_of a1)).
    { eapply Permutation_NoDup; [|exact N1]. eapply Permutation_trans; eauto. }
    inversion Hnd; subst. apply H3. apply In_fws. split; assumption.
Qed.

(** *** C05 *)
Lemma rows_permutation : forall m n rand s, init_args m n rand -> cmdInit m n rand = Ok s -> mM s <= 65536 ->
  zlen (mperm s) = n /\ forall row, In row (mperm s) -> Permutation row (slots (mM s)).
Proof.
  intros m n rand s Ha H Hle.
  destruct (init_facts _ _ _ _ Ha H) as [W1 [_ [_ [_ [_ [W6 _]]]]]].
  split; [rewrite (wf_perm _ W1); assumption|]. destruct Ha as [Hm [Hn Hr]]. intros row Hin.
  apply (cmdInit_good_rows m n rand s); auto. intro k. apply Hr.
Qed.

(** *** C07 *)
Lemma init_layout : forall m n rand s, init_args m n rand -> cmdInit m n rand = Ok s ->
  sorted_from 0 (regions (mM s) (mN s)) (len_formula (mM s) (mN s)).
Proof.
  intros m n rand s Ha H.
  destruct (init_facts _ _ _ _ Ha H) as [W1 [_ [_ [W4 [W5 [W6 [W7 _]]]]]]].
  apply layout_ok; [lia|destruct Ha; lia|]. apply layout_fits_iff; [destruct Ha; lia|lia|].
  destruct Ha as [Hm [Hn Hr]]. revert H. unfold cmdInit. intro H.
  destruct (if m <? 3 then Ok 3 else primeBelow m) as [p| | |] eqn:Ep; try discriminate. cbn [obind] in H.
  destruct (n >? p); [discriminate|].
  destruct (magDataDyn_len p n) as [len| | |] eqn:El; try discriminate. cbn [obind] in H.
  unfold magDataDyn_init in H. unfold magDataDyn_len in El.
  destruct (primeBelow (if p <? 3 then 3 else p)) as [q| | |] eqn:Eq; try discriminate. cbn [obind] in H, El.
  injection El as <-.
  destruct (magDataDyn_len q n) as [need| | |]; try discriminate. cbn [obind] in H.
  destruct (len_formula q n <? need); [discriminate|].
  destruct (layout_fits q n (len_formula q n)) eqn:Ef; [|discriminate]. cbn [negb] in H.
  unfold magDataDyn_populate in H. cbn [mM mN mlookup mperm mactive] in H.
  destruct (populate_gen dyn_active q n (repeat 0 (Z.to_nat q)) (make_rows q n rand) (repeat (-1) (Z.to_nat n)))
    as [[l tr]| | |]; try discriminate. cbn [obind fst] in H. injection H as <-. cbn [mM mN]. assumption.
Qed.

(** *** C58 *)
Lemma idx_roundtrip : forall m n rand cs s i fw fw' s1 s2 t1 t2, init_args m n rand -> reached m n rand cs s ->
  znth (mactive s) i = Some fw -> 0 <= fw -> 0 <= fw' ->
  run_cmd s (DeactivateIdx i) = Ok (s1, t1) -> run_cmd s1 (ActivateIdx i fw') = Ok (s2, t2) ->
  mlookup s2 = mlookup s.
Proof.
  intros m n rand cs s i fw fw' s1 s2 t1 t2 Ha Hr Hi Hf Hf' H1 H2.
  assert (Hr2 : reached m n rand (cs ++ [DeactivateIdx i; ActivateIdx i fw']) s2).
  { destruct Hr as [s0 [R1 R2]]. exists s0. split; [assumption|].
    clear - R2 H1 H2. revert s0 R2. induction cs as [|c cs IH]; intros s0 R2; cbn [run_hist app] in *.
    - injection R2 as ->. cbn [run_hist]. rewrite H1. cbn [run_hist]. rewrite H2. reflexivity.
    - destruct (run_cmd s0 c) as [[s3 t3]| | |]; try discriminate; apply IH; assumption. }
  eapply table_function; [exact Ha|exact Hr2|exact Hr|].
  pose proof (znth_some_range _ _ _ _ Hi) as Hrange.
  assert (A1 : mactive s1 = zupd (mactive s) i (-1)).
  { cbn [run_cmd] in H1. destruct (u32 i >=? mN s); [discriminate|].
    rewrite (proj2 (aget_ok _ _ _ _) Hi) in H1. cbn [obind] in H1. destruct (0 <=? fw) eqn:E; [|lia].
    rewrite aset_in_range in H1 by lia. cbn [obind] in H1. unfold finish in H1.
    destruct (magDataDyn_populate (with_active s (zupd (mactive s) i (-1)))) as [[x y]| | |] eqn:Ep; try discriminate.
    cbn [obind] in H1. injection H1 as <- _. unfold magDataDyn_populate in Ep.
    destruct (populate_gen _ _ _ _ _ _) as [[l tr]| | |]; try discriminate. cbn [obind] in Ep. injection Ep as <- _.
    reflexivity. }
  assert (A2 : mactive s2 = zupd (mactive s) i fw').
  { cbn [run_cmd] in H2. destruct (u32 i >=? mN s1); [discriminate|].
    rewrite A1 in H2. rewrite (proj2 (aget_ok _ _ i (-1))) in H2 by (apply znth_zupd_eq; lia). cbn [obind] in H2.
    destruct (-1 =? fw') eqn:E; [lia|].
    rewrite aset_in_range in H2 by (rewrite zlen_zupd; lia). cbn [obind] in H2. unfold finish in H2.
    destruct (magDataDyn_populate _) as [[x y]| | |] eqn:Ep; try discriminate.
    cbn [obind] in H2. injection H2 as <- _. unfold magDataDyn_populate in Ep.
    destruct (populate_gen _ _ _ _ _ _) as [[l tr]| | |]; try discriminate. cbn [obind] in Ep. injection Ep as <- _.
    cbn [with_active mactive]. apply znth_ext; rewrite ?zlen_zupd; [reflexivity|].
    intros k Hk. rewrite !znth_zupd, !zlen_zupd. destruct (_ && _) eqn:Eb; [reflexivity|].
    try reflexivity. }
  intro k. unfold is_active. rewrite A2, znth_zupd.
  destruct (Z.eq_dec k i) as [->|Hne].
  - rewrite Hi. destruct (_ && _) eqn:Eb; [|lia]. split; intros [x [Hx1 Hx2]]; eexists; split; eauto.
  - destruct (_ && _) eqn:Eb; [lia|]. reflexivity.
Qed.

Lemma deactivated_gone : forall m n rand cs s fw s' t tr s1 s2 hash,
  init_args m n rand -> reached m n rand (map to_cmd cs) s -> 0 <= fw ->
  run_cmd s (Deactivate [fw]) = Ok (s', t :: tr) ->
  In s1 (states s (t :: tr)) -> In s2 (states (apply_store s t) tr) -> 0 <= hash ->
  exists v, read2 s1 s2 hash = Ok v /\ v <> fw.
Proof.
  intros m n rand cs s fw s' t tr s1 s2 hash Ha Hr Hfw Hc H1 H2 Hh.
  destruct (reached_readable _ _ _ _ _ Ha Hr) as [R1 R2].
  destruct (set_semantics _ _ _ _ _ Ha Hr) as [N1 [N2 _]].
  pose proof (rd_wf _ R1) as Hwf.
  destruct (run_cmd_trace _ _ _ _ Hwf R2 Hc) as [_ HT].
  destruct (states_inv _ _ _ _ R1 HT H1) as [Q0 [Q1 [Q2 _]]].
  apply (cleared_stays_cleared s (s_hist n cs) fw s' t tr s1 s2 hash); auto. split; assumption.
Qed.

Lemma layout_pairs : forall M N, 0 <= M -> 0 <= N -> 24 + 4 * (M * N) + 4 * (M + N) < 2 ^ 32 ->
  (forall r, In r (regions M N) -> 0 <= fst r /\ fst r + snd r <= len_formula M N) /\
  (forall i j r1 r2, i <> j -> nth_error (regions M N) i = Some r1 ->
     nth_error (regions M N) j = Some r2 -> disjoint r1 r2).
Proof.
  intros M N HM HN Hb. pose proof (layout_ok M N HM HN Hb) as HL. split.
  - intros r Hin. pose proof (sorted_from_in _ _ _ _ HL Hin). lia.
  - intros i j r1 r2 Hij H1 H2. unfold disjoint.
    destruct (Nat.lt_trichotomy i j) as [Hlt|[He|Hlt]]; [left|contradiction|right];
      eapply sorted_from_pairs; eauto.
Qed.

Lemma layout_short : forall M N, 0 <= N <= M -> M <= 994009 ->
  2 ^ 32 <= 24 + 4 * (M * N) + 4 * (M + N) -> len_formula M N < 12 + 4 * M + N * (4 * M) + 4 * N.
Proof.
  intros M N HN HM Hb. destruct (Z_lt_dec (len_formula M N) (12 + 4 * M + N * (4 * M) + 4 * N)) as [H|H]; [assumption|].
  exfalso. assert (Hf : layout_fits M N (len_formula M N) = true) by (unfold layout_fits; lia).
  apply layout_fits_iff in Hf; [|lia|lia]. unfold two32 in Hf. lia.
Qed.

Lemma layout_accept : forall m n rand p, init_args m n rand ->
  primeBelow (Z.max m 3) = Ok p -> n <= p -> 24 + 4 * (p * n) + 4 * (p + n) < 2 ^ 32 ->
  exists s, cmdInit m n rand = Ok s /\ mM s = p /\ mN s = n.
Proof.
  intros m n rand p [Hm [Hn Hr]] Hp Hle Hb.
  destruct (cmdInit_ok m n rand p) as [s [H1 [_ [_ [H2 [H3 _]]]]]]; auto. exists s. auto.
Qed.
