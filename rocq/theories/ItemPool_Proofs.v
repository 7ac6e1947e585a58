(** Proofs about item pools. *)
From Coq Require Import Permutation.
From Verif Require Import Base Lists ItemPool_Model ItemPool_Spec.

Fixpoint chain (nxt : list (option Z)) (h : option Z) (l : list Z) : Prop :=
  match l with
  | [] => h = None
  | i :: r => h = Some i /\ exists n, znth nxt i = Some n /\ chain nxt n r
  end.
Definition hd_of (l : list Z) : option Z := match l with [] => None | i :: _ => Some i end.

Lemma chain_hd : forall nxt h l, chain nxt h l -> h = hd_of l.
Proof. intros nxt h [|i l] H; cbn in *; tauto. Qed.

Lemma chain_upd : forall nxt l h i v, chain nxt h l -> ~ In i l -> chain (zupd nxt i v) h l.
Proof.
  induction l as [|j l IH]; intros h i v H Hi; cbn in *; [assumption|].
  destruct H as [H [n [Hn Hc]]]. split; [assumption|]. exists n. split; [|apply IH; tauto].
  rewrite znth_zupd_neq; [assumption|]. intro E. apply Hi. left. congruence.
Qed.

Lemma perm_nodup_app : forall (a b : list Z), NoDup (a ++ b) -> NoDup a /\ NoDup b /\ (forall x, In x a -> ~ In x b).
Proof.
  induction a as [|x a IH]; intros b H; cbn in *; [split; [constructor|split; [assumption|intros y []]]|].
  apply NoDup_cons_iff in H. destruct H as [H1 H2]. destruct (IH b H2) as [I1 [I2 I3]]. split; [|split; [assumption|]].
  - constructor; [|assumption]. intro Hx. apply H1. apply in_or_app. auto.
  - intros y [<-|Hy]; [intro Hb; apply H1; apply in_or_app; auto|auto].
Qed.

Record pinv (n : Z) (p : pool) (held : list (list Z)) (h : list (pop * option Z)) (fl : list Z) : Prop := {
  pi_bound : n < two32;
  pi_free : chain (p_next p) (p_free p) fl;
  pi_held : forall l, In l held -> l <> [] /\ chain (p_next p) (hd_of l) l;
  pi_perm : NoDup (fl ++ concat held);
  pi_all : forall i, In i (fl ++ concat held) <-> 0 <= i < n;
  pi_len : zlen (p_next p) = n;
  pi_nfree : st_nFree (p_stats p) = zlen fl;
  pi_size : st_size (p_stats p) = n;
  pi_nalloc : st_nAlloc (p_stats p) = u32 (allocs (since_clear h));
  pi_nrej : st_nRejected (p_stats p) = u32 (rejects (since_clear h));
}.

(** ** Creation *)
Lemma init_loop_spec : forall k i real block free nxt fl f' n', 0 <= i ->
  chain nxt free fl -> zlen nxt = i -> NoDup fl -> (forall j, In j fl <-> 0 <= j < i) ->
  init_loop k i real block free nxt = Ok (f', n') ->
  exists fl', chain n' f' fl' /\ zlen n' = i + Z.of_nat k /\ NoDup fl' /\ (forall j, In j fl' <-> 0 <= j < i + Z.of_nat k).
Proof.
  induction k as [|k IH]; intros i real block free nxt fl f' n' Hi C L N A H; cbn [init_loop] in H.
  - injection H as <- <-. exists fl. rewrite Z.add_0_r. auto.
  - destruct (block <? i * real + item_hdr); [discriminate|].
    destruct (IH (i + 1) real block (Some i) (nxt ++ [free]) (i :: fl) f' n') as [fl' [H1 [H2 [H3 H4]]]]; auto; try lia.
    + split; [reflexivity|]. exists free. split.
      * unfold znth. destruct (i <? 0) eqn:E; [lia|]. rewrite nth_error_app2 by (unfold zlen in L; lia).
        replace (Z.to_nat i - length nxt)%nat with 0%nat by (unfold zlen in L; lia). reflexivity.
      * clear - C. generalize [free] as w. revert free C. induction fl as [|j fl IHf]; intros free C w; cbn in *; [assumption|].
        destruct C as [C1 [m [C2 C3]]]. split; [assumption|]. exists m. split; [|auto].
        unfold znth in *. destruct (j <? 0); [discriminate|]. rewrite nth_error_app1; [assumption|].
        apply nth_error_Some. congruence.
    + unfold zlen in *. rewrite app_length. cbn. lia.
    + constructor; [|assumption]. rewrite A. lia.
    + intro j. cbn. rewrite A. lia.
    + exists fl'. split; [assumption|]. split; [lia|]. split; [assumption|]. intro j. rewrite H4. lia.
Qed.

Lemma create_pinv : forall n sz p, 0 <= n < two32 -> itemPoolCreate n sz true = Ok (Some p) -> exists fl, pinv n p [] [] fl.
Proof.
  intros n sz p Hn H. unfold itemPoolCreate in H. destruct (n =? 0) eqn:E.
  - injection H as <-. exists []. replace n with 0 by lia. constructor; cbn; auto; try tauto; [unfold two32; lia|constructor|].
    intro i. split; [intros []|lia].
  - cbn [negb] in H. destruct (init_loop (Z.to_nat n) 0 _ _ None []) as [[f nx]| | |] eqn:El; try discriminate.
    cbn [obind] in H. injection H as <-.
    destruct (init_loop_spec (Z.to_nat n) 0 _ _ None [] [] f nx ltac:(lia) eq_refl eq_refl ltac:(constructor) ltac:(cbn; intro; lia) El) as [fl [H1 [H2 [H3 H4]]]].
    replace (0 + Z.of_nat (Z.to_nat n)) with n in * by lia.
    exists fl. constructor; cbn [p_next p_free p_stats st_nFree st_size st_nAlloc st_nRejected concat]; auto.
    + lia.
    + intros l [].
    + rewrite app_nil_r. assumption.
    + intro i. rewrite app_nil_r. apply H4.
    + assert (Hp : Permutation fl (map Z.of_nat (seq 0 (Z.to_nat n)))).
      { apply NoDup_Permutation; [assumption| |].
        - apply FinFun.Injective_map_NoDup; [intros a b; lia|apply seq_NoDup].
        - intro x. rewrite H4, in_map_iff. split.
          + intro Hx. exists (Z.to_nat x). rewrite in_seq. lia.
          + intros [y [<- Hy]]. rewrite in_seq in Hy. lia. }
      apply Permutation_length in Hp. rewrite map_length, seq_length in Hp. unfold zlen. lia.
Qed.

Lemma create_ok : forall n sz, 0 <= n -> 0 <= sz -> n * (24 + sz) < two32 -> exists p, itemPoolCreate n sz true = Ok (Some p).
Proof.
  intros n sz Hn Hs Hb. unfold itemPoolCreate. destruct (n =? 0) eqn:E; [eauto|]. cbn [negb]. unfold item_hdr.
  assert (Hreal : u32 (24 + sz) = 24 + sz) by (unfold u32; apply Z.mod_small; nia). rewrite Hreal.
  assert (Hblk : u32 (n * (24 + sz)) = n * (24 + sz)) by (unfold u32; apply Z.mod_small; nia). rewrite Hblk.
  assert (HL : forall k i free nxt, 0 <= i -> i + Z.of_nat k <= n -> exists r, init_loop k i (24 + sz) (n * (24 + sz)) free nxt = Ok r).
  { induction k as [|k IH]; intros i free nxt Hi Hk; cbn [init_loop]; [eauto|].
    destruct (n * (24 + sz) <? i * (24 + sz) + item_hdr) eqn:El; [unfold item_hdr in El; nia|]. apply IH; lia. }
  destruct (HL (Z.to_nat n) 0 None [] ltac:(lia) ltac:(lia)) as [[f nx] Hr]. rewrite Hr. cbn [obind]. eauto.
Qed.

(** ** The operations *)
Lemma held_count : forall n p held h fl, pinv n p held h fl -> zlen fl + n_held held = n.
Proof.
  intros n p held h fl I. assert (H0 : 0 <= n) by (rewrite <- (pi_len _ _ _ _ _ I); apply zlen_nonneg).
  assert (Hp : Permutation (fl ++ concat held) (map Z.of_nat (seq 0 (Z.to_nat n)))).
  { apply NoDup_Permutation; [apply (pi_perm _ _ _ _ _ I)| |].
    - apply FinFun.Injective_map_NoDup; [intros a b; lia|apply seq_NoDup].
    - intro x. rewrite (pi_all _ _ _ _ _ I), in_map_iff. split.
      + intro Hx. exists (Z.to_nat x). rewrite in_seq. lia.
      + intros [y [<- Hy]]. rewrite in_seq in Hy. lia. }
  apply Permutation_length in Hp. rewrite map_length, seq_length, app_length in Hp. unfold n_held, zlen. lia.
Qed.

Lemma alloc_some : forall n p held h fl, pinv n p held h fl -> fl <> [] ->
  exists i fl' p', fl = i :: fl' /\ itemAllocate p = Ok (p', Some i) /\
    (forall h', st_nAlloc (p_stats p') = u32 (allocs (since_clear h')) -> st_nRejected (p_stats p') = u32 (rejects (since_clear h')) ->
       pinv n p' ([i] :: held) h' fl') /\
    st_nAlloc (p_stats p') = u32 (st_nAlloc (p_stats p) + 1) /\ st_nRejected (p_stats p') = st_nRejected (p_stats p).
Proof.
  intros n p held h fl I Hf. destruct fl as [|i fl']; [congruence|].
  destruct (pi_free _ _ _ _ _ I) as [Hh [m [Hm Hc]]].
  pose proof (pi_perm _ _ _ _ _ I) as Hnd. cbn [app] in Hnd. apply NoDup_cons_iff in Hnd. destruct Hnd as [Hi Hnd].
  assert (Hr : 0 <= i < n) by (apply (pi_all _ _ _ _ _ I); left; reflexivity).
  pose proof (pi_len _ _ _ _ _ I) as HL.
  exists i, fl'. unfold itemAllocate. rewrite Hh. rewrite (proj2 (aget_ok _ _ _ _) Hm). cbn [obind].
  rewrite aset_in_range by lia. cbn [obind]. eexists. split; [reflexivity|]. split; [reflexivity|].
  cbn [p_stats st_nAlloc st_nRejected]. split; [|auto]. intros h' A1 A2.
  constructor; cbn [p_next p_free p_stats st_nFree st_size st_nAlloc st_nRejected].
  - exact (pi_bound _ _ _ _ _ I).
  - apply chain_upd; [assumption|]. intro Hx. apply Hi. apply in_or_app. auto.
  - intros l [<-|Hl].
    + split; [discriminate|]. cbn. split; [reflexivity|]. exists None. split; [|reflexivity]. apply znth_zupd_eq. lia.
    + destruct (pi_held _ _ _ _ _ I l Hl) as [H1 H2]. split; [assumption|]. apply chain_upd; [assumption|].
      intro Hx. apply Hi. apply in_or_app. right. apply in_concat. eauto.
  - cbn [concat app]. apply (Permutation_NoDup (l := i :: fl' ++ concat held)); [apply Permutation_middle|]. constructor; assumption.
  - intro j. rewrite <- (pi_all _ _ _ _ _ I). cbn [concat app]. rewrite in_app_iff. cbn [In]. rewrite in_app_iff. tauto.
  - rewrite zlen_zupd. assumption.
  - rewrite (pi_nfree _ _ _ _ _ I). unfold u32. pose proof (held_count _ _ _ _ _ I) as Hc1.
    assert (zlen (i :: fl') = zlen fl' + 1) by (unfold zlen; cbn [length]; lia). rewrite H.
    rewrite Z.mod_small; [lia|]. pose proof (zlen_nonneg _ fl'). pose proof (pi_bound _ _ _ _ _ I). pose proof (zlen_nonneg _ (concat held)).
    unfold n_held in Hc1. lia.
  - exact (pi_size _ _ _ _ _ I).
  - assumption.
  - assumption.
Qed.

Lemma alloc_none : forall n p held h, pinv n p held h [] ->
  exists p', itemAllocate p = Ok (p', None) /\
    (forall h', st_nAlloc (p_stats p') = u32 (allocs (since_clear h')) -> st_nRejected (p_stats p') = u32 (rejects (since_clear h')) ->
       pinv n p' held h' []) /\
    st_nAlloc (p_stats p') = u32 (st_nAlloc (p_stats p) + 1) /\ st_nRejected (p_stats p') = u32 (st_nRejected (p_stats p) + 1).
Proof.
  intros n p held h I. pose proof (pi_free _ _ _ _ _ I) as Hf. cbn in Hf. unfold itemAllocate. rewrite Hf.
  eexists. split; [reflexivity|]. cbn [p_stats st_nAlloc st_nRejected]. split; [|auto]. intros h' A1 A2.
  destruct I as [I0 I1 I2 I3 I4 I5 I6 I7 I8 I9]. constructor; cbn [p_next p_free p_stats st_nFree st_size st_nAlloc st_nRejected]; auto. reflexivity.
Qed.

Lemma free_loop_spec : forall l fuel items free nxt nf fl, chain nxt items l -> chain nxt free fl -> NoDup (l ++ fl) ->
  (forall i, In i l -> 0 <= i < zlen nxt) -> (length l <= fuel)%nat -> 0 <= nf -> nf + zlen l < two32 ->
  exists f' nxt', free_loop fuel items free nxt nf = Ok (f', nxt', nf + zlen l) /\
    chain nxt' f' (rev l ++ fl) /\ zlen nxt' = zlen nxt /\ (forall j, ~ In j l -> znth nxt' j = znth nxt j).
Proof.
  induction l as [|i l IH]; intros fuel items free nxt nf fl C1 C2 N R F Hn Hb.
  - cbn in C1. subst items. exists free, nxt. split; [destruct fuel; cbn [free_loop]; rewrite Z.add_0_r; reflexivity|]. cbn. auto.
  - destruct C1 as [-> [m [Hm C1]]]. destruct fuel as [|fuel]; [cbn in F; lia|].
    cbn [free_loop]. rewrite (proj2 (aget_ok _ _ _ _) Hm). cbn [obind].
    rewrite aset_in_range by (apply R; left; reflexivity). cbn [obind].
    cbn [app] in N. apply NoDup_cons_iff in N. destruct N as [N1 N2].
    assert (Hz : zlen (i :: l) = zlen l + 1) by (unfold zlen; cbn [length]; lia). rewrite Hz in *.
    pose proof (zlen_nonneg _ l) as Hl0.
    assert (Hnf : u32 (nf + 1) = nf + 1) by (unfold u32; apply Z.mod_small; lia). rewrite Hnf.
    destruct (IH fuel m (Some i) (zupd nxt i free) (nf + 1) (i :: fl)) as [f' [nxt' [H1 [H2 [H3 H4]]]]].
    + apply chain_upd; [assumption|]. intro; apply N1; apply in_or_app; auto.
    + split; [reflexivity|]. exists free. split; [apply znth_zupd_eq; apply R; left; reflexivity|].
      apply chain_upd; [assumption|]. intro; apply N1; apply in_or_app; auto.
    + apply (Permutation_NoDup (l := i :: l ++ fl)); [apply Permutation_middle|]. constructor; assumption.
    + intros j Hj. rewrite zlen_zupd. apply R. right. assumption.
    + cbn in F. lia.
    + lia.
    + lia.
    + exists f', nxt'. rewrite H1. split; [do 2 f_equal; lia|]. split; [cbn [rev]; rewrite <- app_assoc; assumption|].
      split; [rewrite H3; apply zlen_zupd|]. intros j Hj. rewrite H4 by (intro; apply Hj; right; assumption).
      apply znth_zupd_neq. intro; apply Hj; left; congruence.
Qed.

Lemma chain_ext : forall nxt nxt' l h, chain nxt h l -> (forall j, In j l -> znth nxt' j = znth nxt j) -> chain nxt' h l.
Proof.
  induction l as [|i l IH]; intros h C E; cbn in *; [assumption|]. destruct C as [C1 [m [C2 C3]]]. split; [assumption|].
  exists m. split; [rewrite E; auto|]. apply IH; auto.
Qed.

Lemma concat_mid : forall (a b : list (list Z)) l, Permutation (concat (a ++ l :: b)) (l ++ concat (a ++ b)).
Proof.
  intros a b l. rewrite !concat_app. cbn [concat]. rewrite !app_assoc. apply Permutation_app_tail. apply Permutation_app_comm.
Qed.

Lemma nodup_mid : forall (x y : list Z) i, NoDup (x ++ i :: y) -> ~ In i (x ++ y).
Proof. intros x y i H. apply NoDup_remove_2 in H. assumption. Qed.

Lemma free_some : forall n p held h fl a hd l b, pinv n p held h fl -> held = a ++ (hd :: l) :: b ->
  exists p', itemFree p (Some hd) = Ok p' /\
    (forall h', st_nAlloc (p_stats p') = u32 (allocs (since_clear h')) -> st_nRejected (p_stats p') = u32 (rejects (since_clear h')) ->
       pinv n p' (a ++ b) h' (rev (hd :: l) ++ fl)) /\
    st_nAlloc (p_stats p') = st_nAlloc (p_stats p) /\ st_nRejected (p_stats p') = st_nRejected (p_stats p).
Proof.
  intros n p held h fl a hd l b I Hh.
  assert (Hperm : Permutation (fl ++ concat held) ((hd :: l) ++ fl ++ concat (a ++ b))).
  { subst held. rewrite (concat_mid a b (hd :: l)). rewrite !app_assoc. apply Permutation_app_tail. apply Permutation_app_comm. }
  assert (Hnd : NoDup ((hd :: l) ++ fl ++ concat (a ++ b))) by (apply (Permutation_NoDup Hperm), (pi_perm _ _ _ _ _ I)).
  destruct (pi_held _ _ _ _ _ I (hd :: l)) as [_ Hc]; [subst held; apply in_elt|]. cbn [hd_of] in Hc.
  pose proof (held_count _ _ _ _ _ I) as Hcnt. pose proof (pi_bound _ _ _ _ _ I) as Hb. pose proof (pi_len _ _ _ _ _ I) as HL.
  assert (Hcc : n_held held = zlen (hd :: l) + zlen (concat (a ++ b))).
  { unfold n_held. subst held. pose proof (Permutation_length (concat_mid a b (hd :: l))) as E. rewrite app_length in E. unfold zlen. lia. }
  pose proof (zlen_nonneg _ (concat (a ++ b))) as Hz. pose proof (zlen_nonneg _ fl) as Hz2.
  assert (Hlf : NoDup ((hd :: l) ++ fl)).
  { rewrite app_assoc in Hnd. apply perm_nodup_app in Hnd. tauto. }
  destruct (free_loop_spec (hd :: l) (S (length (p_next p))) (Some hd) (p_free p) (p_next p) (st_nFree (p_stats p)) fl)
    as [f' [nxt' [H1 [H2 [H3 H4]]]]]; auto.
  - exact (pi_free _ _ _ _ _ I).
  - intros i Hi. rewrite HL. apply (pi_all _ _ _ _ _ I). apply (Permutation_in _ (Permutation_sym Hperm)). apply in_or_app. auto.
  - unfold zlen in *. lia.
  - rewrite (pi_nfree _ _ _ _ _ I). lia.
  - rewrite (pi_nfree _ _ _ _ _ I). lia.
  - unfold itemFree. rewrite H1. cbn [obind]. eexists. split; [reflexivity|]. cbn [p_stats st_nAlloc st_nRejected]. split; [|auto].
    intros h' A1 A2. constructor; cbn [p_next p_free p_stats st_nFree st_size st_nAlloc st_nRejected]; auto.
    + intros l' Hl'. assert (Hin : In l' held) by (subst held; apply in_app_or in Hl'; apply in_or_app; cbn; tauto).
      destruct (pi_held _ _ _ _ _ I l' Hin) as [G1 G2]. split; [assumption|]. apply (chain_ext (p_next p)); [assumption|].
      intros j Hj. apply H4. intro Hj'. apply perm_nodup_app in Hnd. destruct Hnd as [_ [_ D]]. apply (D j Hj').
      apply in_or_app. right. apply in_concat. eauto.
    + apply (Permutation_NoDup (l := (hd :: l) ++ fl ++ concat (a ++ b))); [|assumption].
      rewrite <- app_assoc. apply Permutation_app_tail. apply Permutation_rev.
    + intro i. rewrite <- (pi_all _ _ _ _ _ I).
      assert (P : Permutation (fl ++ concat held) ((rev (hd :: l) ++ fl) ++ concat (a ++ b))).
      { rewrite Hperm. rewrite <- app_assoc. apply Permutation_app_tail. apply Permutation_rev. }
      split; intro Hi; [apply (Permutation_in _ (Permutation_sym P)); assumption|apply (Permutation_in _ P); assumption].
    + lia.
    + rewrite (pi_nfree _ _ _ _ _ I). unfold zlen. rewrite app_length, rev_length. lia.
    + exact (pi_size _ _ _ _ _ I).
Qed.

Lemma pinv_held_perm : forall n p held held' h fl, pinv n p held h fl -> Permutation held held' -> pinv n p held' h fl.
Proof.
  intros n p held held' h fl [I0 I1 I2 I3 I4 I5 I6 I7 I8 I9] P.
  assert (PC : Permutation (concat held) (concat held')).
  { clear - P. induction P; cbn; [constructor|apply Permutation_app_head; assumption| |etransitivity; eassumption].
    rewrite !app_assoc. apply Permutation_app_tail. apply Permutation_app_comm. }
  constructor; auto.
  - intros l Hl. apply I2. apply (Permutation_in _ (Permutation_sym P)). assumption.
  - apply (Permutation_NoDup (l := fl ++ concat held)); [apply Permutation_app_head; assumption|assumption].
  - intro i. rewrite <- I4. rewrite !in_app_iff.
    split; (intros [H|H]; [auto|right]); [apply (Permutation_in _ (Permutation_sym PC)); assumption|apply (Permutation_in _ PC); assumption].
Qed.

Lemma link_ok : forall n p i hd l rest h fl, pinv n p ([i] :: (hd :: l) :: rest) h fl ->
  exists p', setNext p i (Some hd) = Ok p' /\ p_stats p' = p_stats p /\
    pinv n p' ((i :: hd :: l) :: rest) h fl.
Proof.
  intros n p i hd l rest h fl I. pose proof I as [I0 I1 I2 I3 I4 I5 I6 I7 I8 I9].
  assert (Hi : 0 <= i < n). { apply I4. apply in_or_app. right. cbn. auto. }
  unfold setNext. rewrite aset_in_range by lia. cbn [obind]. eexists. split; [reflexivity|]. split; [reflexivity|].
  assert (Hni : ~ In i (fl ++ (hd :: l) ++ concat rest)).
  { cbn [concat app] in I3. apply nodup_mid in I3. assumption. }
  constructor; cbn [p_next p_free p_stats]; auto.
  - apply chain_upd; [assumption|]. intro. apply Hni. apply in_or_app. auto.
  - intros l' [<-|Hl'].
    + split; [discriminate|]. split; [reflexivity|]. exists (Some hd). split; [apply znth_zupd_eq; lia|].
      apply chain_upd; [apply (I2 (hd :: l)); right; left; reflexivity|]. intro. apply Hni. rewrite !in_app_iff. auto.
    + destruct (I2 l' ltac:(right; right; assumption)) as [G1 G2]. split; [assumption|]. apply chain_upd; [assumption|].
      intro. apply Hni. rewrite !in_app_iff. right. right. apply in_concat. eauto.
  - rewrite zlen_zupd. assumption.
Qed.

Lemma since_cons : forall o r h, o <> PClear -> since_clear ((o, r) :: h) = (o, r) :: since_clear h.
Proof. intros [] r h H; try reflexivity. congruence. Qed.
Lemma u32_u32 : forall a b, u32 (u32 a + b) = u32 (a + b).
Proof. intros. unfold u32. apply Zplus_mod_idemp_l. Qed.
Lemma allocs_cons : forall o r h, allocs ((o, r) :: h) = allocs h + (if is_alloc o then 1 else 0).
Proof. intros. unfold allocs. cbn [filter fst]. destruct (is_alloc o); unfold zlen; cbn [length]; lia. Qed.
Lemma rejects_cons : forall o r h, rejects ((o, r) :: h) = rejects h + (if is_alloc o && match r with None => true | _ => false end then 1 else 0).
Proof. intros. unfold rejects. cbn [filter fst snd]. destruct (is_alloc o && match r with None => true | _ => false end); unfold zlen; cbn [length]; lia. Qed.

Ltac stats_solve I :=
  rewrite since_cons by discriminate; rewrite ?allocs_cons, ?rejects_cons; cbn [is_alloc andb];
  rewrite ?Z.add_0_r;
  repeat match goal with H : st_nAlloc _ = _ |- _ => rewrite H; clear H | H : st_nRejected _ = _ |- _ => rewrite H; clear H end;
  rewrite ?(pi_nalloc _ _ _ _ _ I), ?(pi_nrej _ _ _ _ _ I), ?u32_u32, ?Z.add_0_r; reflexivity.

Lemma step_ok : forall n p held h fl o, pinv n p held h fl -> may held o ->
  exists p' r, pstep p o = Ok (p', r) /\ (exists held', client held o r held') /\
    (is_alloc o = true -> (r = None <-> n_held held = n)) /\
    (forall i, r = Some i -> 0 <= i < n /\ ~ In i (concat held)).
Proof.
  intros n p held h fl o I M.
  pose proof (held_count _ _ _ _ _ I) as Hcnt.
  assert (Halloc : (exists i fl' p', fl = i :: fl' /\ itemAllocate p = Ok (p', Some i) /\ 0 <= i < n /\ ~ In i (concat held) /\ n_held held <> n /\
             exists h2, pinv n p' ([i] :: held) h2 fl') \/
           (exists p', itemAllocate p = Ok (p', None) /\ n_held held = n /\ fl = [] /\ exists h2, pinv n p' held h2 [])).
  { destruct fl as [|i fl'].
    - right. destruct (alloc_none _ _ _ _ I) as [p' [H1 [H2 [H3 H4]]]]. exists p'. split; [assumption|].
      split; [unfold zlen in Hcnt; cbn in Hcnt; lia|]. split; [reflexivity|]. exists ((PAlloc, None) :: h). apply H2; stats_solve I.
    - left. destruct (alloc_some _ _ _ _ _ I ltac:(discriminate)) as [i' [fl2 [p' [E [H1 [H2 [H3 H4]]]]]]].
      injection E as <- <-. exists i, fl', p'. split; [reflexivity|]. split; [assumption|].
      split; [apply (pi_all _ _ _ _ _ I); left; reflexivity|].
      split; [pose proof (pi_perm _ _ _ _ _ I) as N; cbn in N; apply NoDup_cons_iff in N; intro; apply (proj1 N); apply in_or_app; auto|].
      split; [unfold zlen in Hcnt; cbn [length] in Hcnt; lia|].
      exists ((PAlloc, Some i) :: h). apply H2; stats_solve I. }
  destruct o as [|[hd|]|i [hd|]|[hd|]|]; cbn [may pstep is_alloc] in *.
  - destruct Halloc as [[i [fl' [p' [E [H1 [H2 [H3 [H4 _]]]]]]]]|[p' [H1 [H2 _]]]].
    + exists p', (Some i). split; [assumption|]. split; [eexists; constructor|]. split; [intros _; split; [discriminate|intro; contradiction]|].
      intros j Hj. injection Hj as <-. auto.
    + exists p', None. split; [assumption|]. split; [eexists; constructor|]. split; [intros _; tauto|]. intros j Hj. discriminate.
  - destruct M as [l Hl]. apply in_split in Hl. destruct Hl as [a [b Hab]].
    destruct (free_some _ _ _ _ _ _ _ _ _ I Hab) as [p' [H1 _]]. rewrite H1. cbn [obind].
    do 2 eexists. split; [reflexivity|]. split; [eexists; eapply cl_free; eassumption|]. split; [discriminate|]. intros j Hj. discriminate.
  - cbn [itemFree obind]. do 2 eexists. split; [reflexivity|]. split; [eexists; constructor|]. split; [discriminate|]. intros j Hj. discriminate.
  - destruct M as [l [rest P]]. destruct (link_ok _ _ _ _ _ _ _ _ (pinv_held_perm _ _ _ _ _ _ I P)) as [p' [H1 _]].
    rewrite H1. cbn [obind]. do 2 eexists. split; [reflexivity|]. split; [eexists; eapply cl_link; eassumption|]. split; [discriminate|]. intros j Hj. discriminate.
  - destruct M.
  - destruct M as [l Hl]. apply in_split in Hl. destruct Hl as [a [b Hab]]. unfold itemAllocateWithNext.
    destruct Halloc as [[i [fl' [p' [E [H1 [H2 [H3 [H4 [h2 H5]]]]]]]]]|[p' [H1 [H2 [H3 [h2 H4]]]]]]; rewrite H1; cbn [obind].
    + unfold setNext. rewrite aset_in_range by (rewrite (pi_len _ _ _ _ _ H5); assumption). cbn [obind].
      do 2 eexists. split; [reflexivity|]. split; [eexists; eapply cl_next_ok; eassumption|].
      split; [intros _; split; [discriminate|intro; contradiction]|]. intros j Hj. injection Hj as <-. auto.
    + destruct (free_some _ _ _ _ _ _ _ _ _ H4 Hab) as [p2 [H6 _]]. rewrite H6. cbn [obind].
      do 2 eexists. split; [reflexivity|]. split; [eexists; eapply cl_next_no; eassumption|]. split; [intros _; tauto|]. intros j Hj. discriminate.
  - unfold itemAllocateWithNext.
    destruct Halloc as [[i [fl' [p' [E [H1 [H2 [H3 [H4 [h2 H5]]]]]]]]]|[p' [H1 [H2 [H3 [h2 H4]]]]]]; rewrite H1; cbn [obind].
    + unfold setNext. rewrite aset_in_range by (rewrite (pi_len _ _ _ _ _ H5); assumption). cbn [obind].
      do 2 eexists. split; [reflexivity|]. split; [eexists; constructor|].
      split; [intros _; split; [discriminate|intro; contradiction]|]. intros j Hj. injection Hj as <-. auto.
    + cbn [itemFree obind]. do 2 eexists. split; [reflexivity|]. split; [eexists; apply cl_next_null_no|]. split; [intros _; tauto|]. intros j Hj. discriminate.
  - do 2 eexists. split; [reflexivity|]. split; [eexists; constructor|]. split; [discriminate|]. intros j Hj. discriminate.
Qed.

(** Every step a client may make keeps the invariant. *)
Lemma step_pinv : forall n p held h fl o r p' held', pinv n p held h fl -> pstep p o = Ok (p', r) -> client held o r held' ->
  exists fl', pinv n p' held' ((o, r) :: h) fl'.
Proof.
  intros n p held h fl o r p' held' I H C.
  assert (Hset : forall q i hd a b l h2 fl2, pinv n q ([i] :: a ++ (hd :: l) :: b) h2 fl2 -> 
    exists q', setNext q i (Some hd) = Ok q' /\ p_stats q' = p_stats q /\ pinv n q' ((i :: hd :: l) :: a ++ b) h2 fl2).
  { intros q i hd a b l h2 fl2 J. apply link_ok. apply (pinv_held_perm _ _ _ _ _ _ J). constructor. symmetry. apply Permutation_middle. }
  inversion C; subst; cbn [pstep] in H.
  - destruct fl as [|j fl']; [destruct (alloc_none _ _ _ _ I) as [q [E _]]; congruence|].
    destruct (alloc_some _ _ _ _ _ I ltac:(discriminate)) as [i' [fl2 [q [E [H1 [H2 [H3 H4]]]]]]]. rewrite H1 in H. injection H as <- <-.
    exists fl2. apply H2; stats_solve I.
  - destruct fl as [|j fl']; [|destruct (alloc_some _ _ _ _ _ I ltac:(discriminate)) as [i' [fl2 [q [E [H1 _]]]]]; congruence].
    destruct (alloc_none _ _ _ _ I) as [q [H1 [H2 [H3 H4]]]]. rewrite H1 in H. injection H as <-. exists []. apply H2; stats_solve I.
  - cbn [itemFree obind] in H. injection H as <-. exists fl. destruct I as [I0 I1 I2 I3 I4 I5 I6 I7 I8 I9]. constructor; auto;
      rewrite since_cons by discriminate; rewrite ?allocs_cons, ?rejects_cons; cbn [is_alloc andb]; rewrite Z.add_0_r; assumption.
  - destruct (free_some _ _ _ _ _ _ _ _ _ I eq_refl) as [q [H1 [H2 [H3 H4]]]]. rewrite H1 in H. cbn [obind] in H. injection H as <-.
    eexists. apply H2; stats_solve I.
  - destruct (link_ok _ _ _ _ _ _ _ _ (pinv_held_perm _ _ _ _ _ _ I H0)) as [q [H1 [H2 H3]]]. rewrite H1 in H. cbn [obind] in H. injection H as <-.
    exists fl. destruct H3 as [I0 I1 I2 I3 I4 I5 I6 I7 I8 I9]. constructor; auto;
      rewrite since_cons by discriminate; rewrite ?allocs_cons, ?rejects_cons; cbn [is_alloc andb]; rewrite Z.add_0_r; assumption.
  - unfold itemAllocateWithNext in H.
    destruct fl as [|j fl']; [destruct (alloc_none _ _ _ _ I) as [q [E _]]; rewrite E in H; cbn [obind itemFree] in H; discriminate|].
    destruct (alloc_some _ _ _ _ _ I ltac:(discriminate)) as [i' [fl2 [q [E [H1 [H2 [H3 H4]]]]]]]. rewrite H1 in H. cbn [obind] in H.
    injection E as <- <-.
    assert (J : pinv n q ([j] :: held) ((PAllocNext None, Some j) :: h) fl') by (apply H2; stats_solve I).
    assert (Hj : 0 <= j < n) by (apply (pi_all _ _ _ _ _ J); apply in_or_app; right; left; reflexivity).
    unfold setNext in H. rewrite aset_in_range in H by (rewrite (pi_len _ _ _ _ _ J); assumption). cbn [obind] in H. injection H as <- <-.
    exists fl'.
    assert (Hj2 : znth (p_next q) j = Some None).
    { destruct (pi_held _ _ _ _ _ J [j] (or_introl eq_refl)) as [_ [_ [m [Hm Hc]]]]. cbn in Hc. subst m. assumption. }
    assert (Heq : zupd (p_next q) j None = p_next q).
    { apply znth_ext; [apply zlen_zupd|]. intros z Hz. rewrite znth_zupd. destruct (j =? z) eqn:Ez; [|reflexivity].
      replace z with j by lia. rewrite Hj2. destruct (_ && _); reflexivity. }
    rewrite Heq. destruct q as [? ? ? ?]; exact J.
  - unfold itemAllocateWithNext in H.
    destruct fl as [|j fl']; [|destruct (alloc_some _ _ _ _ _ I ltac:(discriminate)) as [i' [fl2 [q [E [H1 _]]]]]; rewrite H1 in H; cbn [obind] in H;
      destruct (setNext q i' None); cbn [obind] in H; discriminate].
    destruct (alloc_none _ _ _ _ I) as [q [H1 [H2 [H3 H4]]]]. rewrite H1 in H. cbn [obind itemFree] in H. injection H as <-.
    exists []. apply H2; stats_solve I.
  - unfold itemAllocateWithNext in H.
    destruct fl as [|j fl']; [destruct (alloc_none _ _ _ _ I) as [q [E _]]; rewrite E in H; cbn [obind] in H; destruct (itemFree q (Some h0)); cbn [obind] in H; discriminate|].
    destruct (alloc_some _ _ _ _ _ I ltac:(discriminate)) as [i' [fl2 [q [E [H1 [H2 [H3 H4]]]]]]]. rewrite H1 in H. cbn [obind] in H.
    injection E as <- <-.
    assert (J : pinv n q ([j] :: a ++ (h0 :: l) :: b) ((PAllocNext (Some h0), Some j) :: h) fl') by (apply H2; stats_solve I).
    destruct (Hset _ _ _ _ _ _ _ _ J) as [q' [G1 [G2 G3]]]. rewrite G1 in H. cbn [obind] in H. injection H as <- <-.
    exists fl'. assumption.
  - unfold itemAllocateWithNext in H.
    destruct fl as [|j fl']; [|destruct (alloc_some _ _ _ _ _ I ltac:(discriminate)) as [i' [fl2 [q [E [H1 _]]]]]; rewrite H1 in H; cbn [obind] in H;
      destruct (setNext q i' (Some h0)); cbn [obind] in H; discriminate].
    destruct (alloc_none _ _ _ _ I) as [q [H1 [H2 [H3 H4]]]]. rewrite H1 in H. cbn [obind] in H.
    assert (J : pinv n q (a ++ (h0 :: l) :: b) ((PAllocNext (Some h0), None) :: h) []) by (apply H2; stats_solve I).
    destruct (free_some _ _ _ _ _ _ _ _ _ J eq_refl) as [q' [G1 [G2 [G3 G4]]]]. rewrite G1 in H. cbn [obind] in H. injection H as <-.
    eexists. apply G2; [rewrite G3; exact (pi_nalloc _ _ _ _ _ J)|rewrite G4; exact (pi_nrej _ _ _ _ _ J)].
  - injection H as <-. exists fl. destruct I as [I0 I1 I2 I3 I4 I5 I6 I7 I8 I9]. constructor; auto.
Qed.

Lemma reach_pinv : forall n p held h, 0 <= n < two32 -> reach n p held h -> exists fl, pinv n p held h fl.
Proof.
  intros n p held h Hn R. induction R as [sz p H|p held h o r p' held' R [fl IH] H C].
  - eapply create_pinv; eauto.
  - eapply step_pinv; eauto.
Qed.

(** ** Statements *)
Lemma pool_partition : forall n p held h, 0 <= n < two32 -> reach n p held h ->
  exists free, NoDup (free ++ concat held) /\ (forall i, In i (free ++ concat held) <-> 0 <= i < n) /\
    st_size (p_stats p) = n /\ st_nFree (p_stats p) = zlen free /\ st_nFree (p_stats p) = n - n_held held /\
    st_nAlloc (p_stats p) = u32 (allocs (since_clear h)) /\
    st_nRejected (p_stats p) = u32 (rejects (since_clear h)).
Proof.
  intros n p held h Hn R. destruct (reach_pinv _ _ _ _ Hn R) as [fl I]. exists fl.
  pose proof (held_count _ _ _ _ _ I). destruct I as [I0 I1 I2 I3 I4 I5 I6 I7 I8 I9]. repeat (split; [auto; lia|]). auto.
Qed.

Lemma pool_step : forall n p held h o, 0 <= n < two32 -> reach n p held h -> may held o ->
  exists p' r, pstep p o = Ok (p', r) /\ (exists held', client held o r held') /\
    (is_alloc o = true -> (r = None <-> n_held held = n)) /\
    (forall i, r = Some i -> 0 <= i < n /\ ~ In i (concat held)).
Proof.
  intros n p held h o Hn R M. destruct (reach_pinv _ _ _ _ Hn R) as [fl I]. eapply step_ok; eauto.
Qed.

Lemma create_overflow : forall n sz, 0 < n -> u32 (n * u32 (24 + sz)) < 24 -> itemPoolCreate n sz true = UB.
Proof.
  intros n sz Hn H. unfold itemPoolCreate, item_hdr. destruct (n =? 0) eqn:E; [lia|]. cbn [negb].
  destruct (Z.to_nat n) as [|k] eqn:Ek; [lia|]. cbn [init_loop]. unfold item_hdr.
  destruct (u32 (n * u32 (24 + sz)) <? 0 * u32 (24 + sz) + 24) eqn:El; [reflexivity|lia].
Qed.
