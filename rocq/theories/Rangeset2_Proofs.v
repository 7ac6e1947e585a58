(** Proofs about range sets: repeated update, printing, reading. *)
From Coq Require Import Permutation Sorted String.
From Verif Require Import Base Lists Cstr_Model Util_Spec Util_Proofs
  Rangeset_Model Rangeset_Spec Rangeset_Proofs.

(** ** A sort function *)
Fixpoint insert (key : Z -> Z) (x : Z) (l : list Z) : list Z :=
  match l with
  | [] => [x]
  | y :: l' => if key x <=? key y then x :: l else y :: insert key x l'
  end.
Definition isort : sorter := fun key l => fold_right (insert key) [] l.

Lemma insert_perm key x l : Permutation (x :: l) (insert key x l).
Proof.
  induction l as [|y l IH]; cbn; auto. destruct (key x <=? key y); auto.
  rewrite perm_swap. constructor. auto.
Qed.
Lemma insert_sorted key x l : StronglySorted (fun a b => key a <= key b) l ->
  StronglySorted (fun a b => key a <= key b) (insert key x l).
Proof.
  induction l as [|y l IH]; cbn; intros H; [repeat constructor|].
  destruct (key x <=? key y) eqn:E.
  - constructor; auto. apply StronglySorted_inv in H. destruct H as [H1 H2].
    constructor; [lia|]. eapply Forall_impl; [|exact H2]. cbn; intros; lia.
  - apply StronglySorted_inv in H. destruct H as [H1 H2]. constructor; auto.
    rewrite Forall_forall in *. intros z Hz. eapply Permutation_in in Hz; [|apply Permutation_sym, insert_perm].
    destruct Hz as [<-|Hz]; [lia|auto].
Qed.
Lemma isort_ok : qsort_ok isort.
Proof.
  intros key l. unfold isort. induction l as [|x l [IH1 IH2]]; cbn; [split; constructor|].
  split; [|apply insert_sorted; auto]. rewrite <- insert_perm. constructor. auto.
Qed.

(** ** C31: the second update *)
Lemma sort1 sort key x : qsort_ok sort -> sort key [x] = [x].
Proof. intros H. destruct (H key [x]) as (P & _). apply Permutation_length_1_inv; auto. Qed.

Lemma sort2 sort key x y : qsort_ok sort -> key y < key x -> sort key [x; y] = [y; x].
Proof.
  intros H L. destruct (H key [x; y]) as (P & S).
  apply Permutation_length_2_inv in P. destruct P as [P|P]; auto. rewrite P in S.
  apply StronglySorted_inv in S. destruct S as [_ S]. apply Forall_inv in S. lia.
Qed.

Definition upd_add (sort : sorter) (fuel : nat) (t : rset) (r : range) : outcome rset :=
  match rangeSetAdd t (fst r) (snd r) with
  | Some t' => rangeSetUpdate sort fuel t'
  | None => Die
  end.

(** One range, updated twice. *)
Lemma twice_loops sort fuel f e :
  qsort_ok sort -> 0 <= f <= e -> e <= UINT_MAX -> (2 <= fuel)%nat ->
  exists t1 t2, rangeSetUpdate sort fuel (add_all rangeSetCreate [(f, e)]) = Ok t1 /\
    rangeSetUpdate sort fuel t1 = Ok t2 /\
    (forall v n, e < v -> rangeSetIn n t2 v = Fuel) /\ forall n, rangeSetDestroy n t2 = Fuel.
Proof.
  intros HQ HF HE HN. destruct fuel as [|[|n]]; try lia.
  cbn [add_all]. unfold rangeSetAdd. cbn [rangeSetCreate lowest highest hp next count root added].
  replace (e <? f) with false by lia.
  change ((0 <? 0) && (f <? 0)) with false. cbv iota.
  replace ((UINT_MAX <? UINT_MAX) && (UINT_MAX <? e)) with false by reflexivity. cbv iota.
  change (u32 (0 + 1)) with 1.
  set (h1 := hset empty_heap 1 (Some (mkN f e 0 0))).
  assert (H1 : h1 1 = Some (mkN f e 0 0)) by reflexivity.
  unfold rangeSetUpdate at 1. cbn [count hp root added lowest highest next]. cbn [Z.eqb].
  replace (storeNodes (S (S n)) h1 0) with (@Ok (list Z) []) by reflexivity. cbn [obind].
  replace (storeNodes (S (S n)) h1 1) with (Ok [1]).
  2:{ cbn [storeNodes Z.eqb]. unfold load. rewrite H1. cbn [obind left right storeNodes Z.eqb]. destruct n; reflexivity. }
  cbn [obind app]. change (negb (zlen [1] =? 1)) with false. cbv iota.
  rewrite sort1 by auto. cbn [merge obind insertSorted]. cbn [length Nat.div Nat.divmod fst nth_error].
  change (0 =? 0) with true. cbv iota. unfold load at 1. rewrite H1. cbn [obind first last].
  unfold store at 1. rewrite H1. cbn [obind firstn skipn Nat.add insertSorted].
  change (zlen [1]) with 1.
  set (h2 := hset h1 1 (Some (mkN f e 0 0))).
  assert (H2 : h2 1 = Some (mkN f e 0 0)) by reflexivity.
  eexists. eexists. split; [reflexivity|].
  unfold rangeSetUpdate at 1. cbn [count hp root added lowest highest next]. cbn [Z.eqb].
  replace (storeNodes (S (S n)) h2 1) with (Ok [1]).
  2:{ cbn [storeNodes Z.eqb]. unfold load. rewrite H2. cbn [obind left right storeNodes Z.eqb]. destruct n; reflexivity. }
  cbn [obind app]. replace (storeNodes (S (S n)) h2 0) with (@Ok (list Z) []) by reflexivity.
  cbn [obind app]. change (negb (zlen [1] =? 1)) with false. cbv iota.
  rewrite sort1 by auto. cbn [merge obind insertSorted]. cbn [length Nat.div Nat.divmod fst nth_error].
  change (1 =? 0) with false. cbv iota. cbn [insertNode]. unfold load at 1 2. rewrite H2. cbn [obind first last left right].
  replace (f <? f) with false by lia. cbn [Z.eqb].
  unfold store at 1. rewrite H2. cbn [obind].
  set (h3 := hset h2 1 (Some (mkN f e 0 0))).
  assert (H3 : h3 1 = Some (mkN f e 0 0)) by reflexivity.
  unfold load. rewrite H3. cbn [obind]. unfold store. rewrite H3. cbn [obind firstn skipn Nat.add insertSorted].
  split; [reflexivity|]. unfold with_right. cbn [first last left].
  set (h4 := hset h3 1 (Some (mkN f e 0 1))).
  assert (H4 : h4 1 = Some (mkN f e 0 1)) by reflexivity.
  split.
  - intros v m Hv. unfold rangeSetIn. cbn [hp root].
    match goal with |- isInTree _ ?h _ _ = _ => change h with h4 end. induction m as [|m IH]; [reflexivity|].
    cbn [isInTree Z.eqb]. unfold load. rewrite H4. cbn [obind first last left right].
    replace (v <? f) with false by lia. replace (e <? v) with true by lia. exact IH.
  - intros m. unfold rangeSetDestroy. cbn [hp root added].
    match goal with |- context [treeFree _ ?h _] => change h with h4 end.
    replace (treeFree m h4 1) with (@Fuel heap); [reflexivity|].
    induction m as [|m IH]; [reflexivity|]. cbn [treeFree Z.eqb]. unfold load. rewrite H4. cbn [obind left right].
    replace (treeFree m h4 0) with (Ok h4) by (destruct m; reflexivity). cbn [obind]. rewrite H4. cbn [obind right].
    rewrite <- IH. reflexivity.
Qed.

(** A range added later that swallows the first one. *)
Lemma swallow_uaf sort fuel f e f' e' :
  qsort_ok sort -> 0 <= f <= e -> e <= UINT_MAX -> 0 <= f' -> e' <= UINT_MAX ->
  f' < f -> f <= e' + 1 -> f' <= e' -> (2 <= fuel)%nat ->
  exists t1, rangeSetUpdate sort fuel (add_all rangeSetCreate [(f, e)]) = Ok t1 /\
    rangeSetUpdate sort fuel (add_all t1 [(f', e')]) = UB.
Proof.
  intros HQ HF HE HF' HE' HL HO HFE HN. destruct fuel as [|[|n]]; try lia.
  cbn [add_all]. unfold rangeSetAdd at 1. cbn [rangeSetCreate lowest highest hp next count root added].
  replace (e <? f) with false by lia.
  change ((0 <? 0) && (f <? 0)) with false. cbv iota.
  replace ((UINT_MAX <? UINT_MAX) && (UINT_MAX <? e)) with false by reflexivity. cbv iota.
  change (u32 (0 + 1)) with 1. change (1 + 1) with 2.
  set (h1 := hset empty_heap 1 (Some (mkN f e 0 0))).
  assert (H1 : h1 1 = Some (mkN f e 0 0)) by reflexivity.
  unfold rangeSetUpdate at 1. cbn [count hp root added lowest highest next]. cbn [Z.eqb].
  replace (storeNodes (S (S n)) h1 0) with (@Ok (list Z) []) by reflexivity. cbn [obind].
  replace (storeNodes (S (S n)) h1 1) with (Ok [1]).
  2:{ cbn [storeNodes Z.eqb]. unfold load. rewrite H1. cbn [obind left right storeNodes Z.eqb]. destruct n; reflexivity. }
  cbn [obind app]. change (negb (zlen [1] =? 1)) with false. cbv iota.
  rewrite sort1 by auto. cbn [merge obind insertSorted]. cbn [length Nat.div Nat.divmod fst nth_error].
  change (0 =? 0) with true. cbv iota. unfold load at 1. rewrite H1. cbn [obind first last].
  unfold store at 1. rewrite H1. cbn [obind firstn skipn Nat.add insertSorted].
  change (zlen [1]) with 1.
  set (h2 := hset h1 1 (Some (mkN f e 0 0))).
  assert (H2 : h2 1 = Some (mkN f e 0 0)) by reflexivity.
  eexists. split; [reflexivity|].
  unfold rangeSetAdd. cbn [lowest highest hp next count root added].
  replace (e' <? f') with false by lia.
  change (0 <? 0) with false. cbn [andb].
  replace (UINT_MAX <? UINT_MAX) with false by reflexivity. cbn [andb].
  change (u32 (1 + 1)) with 2. change (2 + 1) with 3.
  set (h3 := hset h2 2 (Some (mkN f' e' 0 0))).
  assert (H31 : h3 1 = Some (mkN f e 0 0)) by reflexivity.
  assert (H32 : h3 2 = Some (mkN f' e' 0 0)) by reflexivity.
  unfold rangeSetUpdate. cbn [count hp root added lowest highest next]. cbn [Z.eqb].
  replace (storeNodes (S (S n)) h3 1) with (Ok [1]).
  2:{ cbn [storeNodes Z.eqb]. unfold load. rewrite H31. cbn [obind left right storeNodes Z.eqb]. destruct n; reflexivity. }
  cbn [obind]. replace (storeNodes (S (S n)) h3 2) with (Ok [2]).
  2:{ cbn [storeNodes Z.eqb]. unfold load. rewrite H32. cbn [obind left right storeNodes Z.eqb]. destruct n; reflexivity. }
  cbn [obind app]. change (negb (zlen [1; 2] =? 2)) with false. cbv iota.
  rewrite sort2; [|auto|unfold key_of; rewrite H31, H32; cbn; lia].
  cbn [merge]. unfold load at 1 2. rewrite H32, H31. cbn [obind first last].
  replace ((e' =? UINT_MAX) || (f <=? u32 (e' + 1))) with true.
  2:{ unfold UINT_MAX in *. destruct (e' =? 4294967295) eqn:E; auto. cbn [orb].
      unfold u32. rewrite Z.mod_small by (unfold two32; lia). lia. }
  set (h4 := hset h3 2 (Some (with_last (mkN f' e' 0 0) e))).
  assert (S : exists h5 x, (if e' <? e then store h3 2 (with_last (mkN f' e' 0 0) e) else Ok h3) = Ok h5 /\
     h5 1 = Some (mkN f e 0 0) /\ h5 2 = Some x).
  { destruct (e' <? e).
    - unfold store. rewrite H32. exists h4. eexists. split; [reflexivity|]. split; reflexivity.
    - exists h3. eexists. split; [reflexivity|]. split; eauto. }
  destruct S as (h5 & x & S1 & S2 & S3). rewrite S1. cbn [obind]. unfold hfree. rewrite S2. cbn [obind merge].
  cbn [insertSorted length Nat.div Nat.divmod fst nth_error].
  change (1 =? 0) with false. cbv iota. cbn [insertNode]. unfold load at 1.
  rewrite hset_neq by lia. rewrite S3. cbn [obind]. unfold load at 1. rewrite hset_eq. reflexivity.
Qed.

(** ** Decimal numbers *)
Definition value (s : chars) (a : Z) : Z := fold_left (fun a c => a * 10 + (c - 48)) s a.

Lemma dec_aux_ok fuel : forall v acc, 0 <= v < 10 ^ Z.of_nat fuel -> (1 <= fuel)%nat ->
  exists d, dec_aux fuel v acc = d ++ acc /\ is_dec d v.
Proof.
  induction fuel as [|fuel IH]; intros v acc Hv HF; [lia|]. cbn [dec_aux].
  pose proof (Z.mod_pos_bound v 10 ltac:(lia)) as M. pose proof (Z.div_mod v 10 ltac:(lia)) as DM.
  destruct (v <? 10) eqn:E.
  - exists [48 + v mod 10]. split; auto. unfold is_dec. rewrite (Z.mod_small v 10) by lia.
    split; [congruence|]. split; [repeat constructor; lia|]. split; [cbn [fold_left]; lia|]. cbn [hd]. intros K.
    f_equal. lia.
  - assert (fuel <> O). { intros ->. change (10 ^ Z.of_nat 1) with 10 in Hv. lia. }
    destruct (IH (v / 10) ((48 + v mod 10) :: acc)) as (d & E1 & D1 & D2 & D3 & D4).
    { split; [apply Z.div_pos; lia|]. apply Z.div_lt_upper_bound; [lia|].
      rewrite Nat2Z.inj_succ, Z.pow_succ_r in Hv by lia. lia. }
    { lia. }
    exists (d ++ [48 + v mod 10]). rewrite E1, <- app_assoc. split; auto. unfold is_dec.
    split; [destruct d; cbn; congruence|]. split; [rewrite Forall_app; split; auto; repeat constructor; lia|].
    split. { rewrite fold_left_app, D3. cbn [fold_left]. lia. }
    intros K. exfalso. destruct d as [|c d]; [congruence|]. cbn in K. subst c.
    specialize (D4 eq_refl). inversion D4; subst d. cbn in D3.
    assert (0 < v / 10) by (apply Z.div_str_pos; lia). lia.
Qed.

Lemma dec_ok v : is_u32 v -> is_dec (dec v) v.
Proof.
  intros H. unfold dec. destruct (dec_aux_ok 10 v []) as (d & E & D).
  - unfold is_u32, UINT_MAX in H. change (10 ^ Z.of_nat 10) with 10000000000. lia.
  - lia.
  - rewrite E, app_nil_r. auto.
Qed.

Lemma range_text_ok r : range_u32 r -> is_range_text (range_text (fst r) (snd r)) r.
Proof.
  intros [H1 H2]. unfold range_text, is_range_text. exists (dec (fst r)).
  split; [apply dec_ok; auto|]. destruct (fst r =? snd r) eqn:E.
  - left. split; [lia|auto].
  - right. split; [lia|]. exists (dec (snd r)). split; [apply dec_ok; auto|auto].
Qed.

(** ** C32: printing *)
Definition text (t : tree) : chars := concat (map (fun r => range_text (fst r) (snd r)) (ranges t)).

Lemma wr_ok s : forall buf pos, 0 <= pos -> pos + zlen s <= zlen buf ->
  wr buf pos s = Ok (firstn (Z.to_nat pos) buf ++ s ++ skipn (Z.to_nat (pos + zlen s)) buf).
Proof.
  induction s as [|c s IH]; intros buf pos H1 H2; unfold zlen in *; cbn [length wr] in *.
  - rewrite Z.add_0_r. cbn [app]. rewrite firstn_skipn. auto.
  - rewrite (aset_in_range _ buf pos c) by (unfold zlen; lia).
    cbn [obind]. rewrite IH; [|lia|].
    2:{ rewrite zupd_length. lia. }
    f_equal. unfold zupd. replace (pos <? 0) with false by lia.
    assert (HL : (Z.to_nat pos < length buf)%nat) by lia.
    replace (Z.to_nat (pos + 1)) with (S (Z.to_nat pos)) by lia.
    replace (Z.to_nat (pos + 1 + Z.of_nat (length s))) with (S (Z.to_nat pos) + length s)%nat by lia.
    replace (Z.to_nat (pos + Z.of_nat (S (length s)))) with (S (Z.to_nat pos) + length s)%nat by lia.
    clear - HL. revert HL. generalize (Z.to_nat pos) as k. intros k. revert buf.
    induction k as [|k IHk]; intros [|y buf] HL; cbn [length] in HL; try lia.
    + reflexivity.
    + cbn [upd firstn app]. f_equal. specialize (IHk buf ltac:(lia)). cbn [firstn Nat.add skipn] in *.
      exact IHk.
Qed.

Lemma range_text_len f e : 2 <= zlen (range_text f e).
Proof.
  assert (D : forall v, (1 <= length (dec v))%nat).
  { intros v. unfold dec. assert (G : forall n v acc, (length acc <= length (dec_aux n v acc))%nat).
    { clear. induction n as [|n IH]; intros v acc; cbn [dec_aux]; auto.
      destruct (v <? 10); cbn [length]; [lia|]. specialize (IH (v / 10) ((48 + v mod 10) :: acc)). cbn [length] in IH. lia. }
    cbn [dec_aux]. destruct (v <? 10); [cbn; lia|].
    specialize (G 9%nat (v / 10) [48 + v mod 10]). cbn [length] in G. exact G. }
  unfold range_text, zlen. destruct (f =? e); rewrite !app_length; cbn [length]; specialize (D f); lia.
Qed.

Lemma text_cases t : text t = [] \/ 2 <= zlen (text t).
Proof.
  unfold text. destruct (ranges t) as [|[f e] l]; cbn; auto. right.
  pose proof (range_text_len f e). unfold zlen in *. rewrite app_length. lia.
Qed.

Lemma text_nd id r tl tr : text (Nd id r tl tr) = text tl ++ range_text (fst r) (snd r) ++ text tr.
Proof. unfold text. cbn [ranges]. rewrite map_app, concat_app. reflexivity. Qed.

Lemma skipn_skipn {A} : forall n m (l : list A), skipn n (skipn m l) = skipn (m + n) l.
Proof.
  intros n m. induction m as [|m IH]; intros l; [reflexivity|]. destruct l; cbn [skipn Nat.add]; auto. apply skipn_nil.
Qed.

(** The buffer after printing s at pos. *)
Definition printed (b : list Z) (pos : Z) (s : chars) : list Z :=
  match s with
  | [] => b
  | _ => firstn (Z.to_nat pos) b ++ s ++ 0 :: skipn (Z.to_nat (pos + zlen s + 1)) b
  end.

Lemma printed_len b pos s : 0 <= pos -> pos + zlen s < zlen b -> zlen (printed b pos s) = zlen b.
Proof.
  intros H1 H2. destruct s as [|c s]; [reflexivity|]. unfold printed, zlen in *.
  rewrite app_length, app_length. cbn [length] in *. rewrite firstn_length, skipn_length. lia.
Qed.

Lemma printed_ne b pos s : s <> [] -> printed b pos s =
  firstn (Z.to_nat pos) b ++ s ++ 0 :: skipn (Z.to_nat (pos + zlen s + 1)) b.
Proof. destruct s; [congruence|auto]. Qed.

Lemma printed_app b pos s s' : 0 <= pos -> pos + zlen s + zlen s' < zlen b ->
  printed (printed b pos s) (pos + zlen s) s' = printed b pos (s ++ s').
Proof.
  intros H1 H2. destruct s' as [|c' s']; [rewrite app_nil_r; reflexivity|].
  destruct s as [|c s].
  { change (zlen (@nil Z)) with 0. rewrite Z.add_0_r. reflexivity. }
  assert (N1 : c :: s <> []) by congruence. assert (N2 : c' :: s' <> []) by congruence.
  revert N1 N2 H2. generalize (c :: s) as S1. generalize (c' :: s') as S2. intros S2 S1 N1 N2 H2.
  rewrite !printed_ne; auto. 2:{ destruct S1; cbn; congruence. }
  assert (LS1 : zlen S1 = Z.of_nat (length S1)) by reflexivity.
  assert (LS2 : zlen S2 = Z.of_nat (length S2)) by reflexivity.
  assert (L2 : (1 <= length S2)%nat) by (destruct S2; [congruence|cbn; lia]).
  assert (LB : zlen b = Z.of_nat (length b)) by reflexivity.
  assert (F : firstn (Z.to_nat (pos + zlen S1)) (firstn (Z.to_nat pos) b ++ S1 ++ 0 :: skipn (Z.to_nat (pos + zlen S1 + 1)) b)
    = firstn (Z.to_nat pos) b ++ S1).
  { rewrite app_assoc, firstn_app.
    assert (E : length (firstn (Z.to_nat pos) b ++ S1) = Z.to_nat (pos + zlen S1)).
    { rewrite app_length, firstn_length. lia. }
    rewrite E, Nat.sub_diag. cbn [firstn]. rewrite app_nil_r. rewrite <- E. apply firstn_all. }
  rewrite F. rewrite <- !app_assoc. f_equal. f_equal. f_equal. f_equal.
  rewrite app_assoc, skipn_app.
  assert (E : length (firstn (Z.to_nat pos) b ++ S1) = Z.to_nat (pos + zlen S1)).
  { rewrite app_length, firstn_length. lia. }
  rewrite skipn_all2 by (rewrite E; lia). cbn [app]. rewrite E.
  replace (Z.to_nat (pos + zlen S1 + zlen S2 + 1) - Z.to_nat (pos + zlen S1))%nat with (S (Z.to_nat (zlen S2))) by lia.
  cbn [skipn]. rewrite skipn_skipn.
  f_equal. unfold zlen. rewrite app_length. lia.
Qed.

Lemma snprintf_ok buf pos s : 0 <= pos -> 2 <= zlen s -> pos + zlen s < zlen buf ->
  snprintf buf pos (zlen buf - pos) s = Ok (printed buf pos s).
Proof.
  intros H1 H2 H3. unfold snprintf. unfold zlen in H2, H3.
  rewrite firstn_all2 by (unfold zlen; lia). rewrite wr_ok; auto.
  - destruct s; [cbn in H2; lia|]. unfold printed. rewrite <- app_assoc. cbn [app].
    do 4 f_equal. f_equal. unfold zlen. cbn [length]. rewrite app_length. cbn [length]. f_equal. lia.
  - unfold zlen. rewrite app_length. cbn [length]. lia.
Qed.

Lemma printTree_ok h t : forall fuel buf pos, rep h t -> (depth t <= fuel)%nat ->
  0 <= pos -> pos + zlen (text t) < zlen buf -> zlen buf <= UINT_MAX ->
  printTree fuel h (rt t) buf pos = Ok (printed buf pos (text t), Some (pos + zlen (text t))).
Proof.
  induction t as [|id r tl IHl tr IHr]; intros fuel buf pos R D H1 H2 H3.
  - change (text Lf) with (@nil Z). change (zlen (@nil Z)) with 0. rewrite Z.add_0_r.
    destruct fuel; reflexivity.
  - cbn [rep depth rt] in *. destruct R as (R1 & R2 & R3 & R4). destruct fuel as [|fuel]; [lia|].
    rewrite text_nd in *. cbn [printTree]. replace (id =? 0) with false by lia.
    unfold load. rewrite R2. cbn [obind first last left right].
    set (s := range_text (fst r) (snd r)) in *.
    assert (LS : 2 <= zlen s) by apply range_text_len.
    assert (LT : forall x : chars, 0 <= zlen x) by (intros; unfold zlen; lia).
    assert (LA : zlen (text tl ++ s ++ text tr) = zlen (text tl) + zlen s + zlen (text tr)).
    { unfold zlen. rewrite !app_length. lia. }
    rewrite LA in *. pose proof (LT (text tl)). pose proof (LT (text tr)).
    rewrite IHl by (auto; lia). cbn [obind].
    replace (u32 (zlen buf - (pos + zlen (text tl)))) with (zlen buf - (pos + zlen (text tl))).
    2:{ symmetry. unfold u32. apply Z.mod_small. unfold two32, UINT_MAX in *. lia. }
    replace (zlen buf - (pos + zlen (text tl)) <? 3) with false by lia.
    assert (PL : zlen (printed buf pos (text tl)) = zlen buf) by (apply printed_len; lia).
    rewrite <- PL at 1. rewrite snprintf_ok by lia. cbn [obind].
    rewrite printed_app by lia.
    assert (LA2 : zlen (text tl ++ s) = zlen (text tl) + zlen s) by (unfold zlen; rewrite app_length; lia).
    assert (PL2 : zlen (printed buf pos (text tl ++ s)) = zlen buf) by (apply printed_len; lia).
    rewrite IHr by (auto; lia).
    replace (pos + zlen (text tl) + zlen s) with (pos + zlen (text tl ++ s)) by lia.
    rewrite printed_app by lia. rewrite <- app_assoc. do 3 f_equal. lia.
Qed.

Lemma canonical_u32 t tr lo hi l :
  inv t tr Lf [] -> True -> (forall v, covered (ranges tr) v <-> covered (filter (accepts lo hi) l) v) ->
  canonical (ranges tr) -> Forall range_u32 l -> Forall (fun r => is_u32 (snd r)) (ranges tr) ->
  Forall range_u32 (ranges tr).
Proof.
  intros _ _ CV CN HU HS. rewrite Forall_forall in *. intros [f e] Hin. split; [|apply HS; auto]. cbn [fst].
  assert (fe : f <= e).
  { clear - CN Hin. induction (ranges tr) as [|[f1 e1] rs IH]; [destruct Hin|].
    destruct (canonical_head_lt _ _ _ CN) as (A & B). destruct Hin as [K|K]; [inversion K; subst; auto|].
    apply B in K. lia. }
  destruct (proj1 (CV f)) as (a & b & K & Hv); [exists f, e; split; auto; lia|].
  apply filter_In in K. destruct K as (K & _). apply HU in K. unfold range_u32, is_u32 in *. cbn [fst snd] in K. lia.
Qed.

Lemma string_ok sort fuel t0 lo hi l buf :
  qsort_ok sort -> created t0 lo hi -> Forall range_u32 l -> zlen l <= UINT_MAX ->
  (length l <= fuel)%nat ->
  exists t rs s, rangeSetUpdate sort fuel (add_all t0 l) = Ok t /\
    inorder fuel (hp t) (root t) = Ok rs /\ is_list_text s rs /\
    (zlen s < zlen buf <= UINT_MAX ->
     rangeSetString fuel t buf = Ok (s ++ 0 :: skipn (S (length s)) buf, 0)).
Proof.
  intros HQ HC HU HL HF.
  destruct (fresh_update sort fuel t0 lo hi l HQ HC HU HL HF)
    as (t & tr & E & I & CN & CV & CU & CT & D & D2 & T1 & T2 & T3).
  pose proof (canonical_u32 t tr lo hi l I Logic.I CV CN HU CU) as RU.
  destruct I as (I1 & _ & I3 & _).
  exists t, (ranges tr), (text tr). split; auto. split; [rewrite I3; apply inorder_rep; auto|].
  split.
  { unfold is_list_text, text. eexists. split; [reflexivity|]. clear - RU.
    induction RU; cbn [map]; constructor; auto. apply range_text_ok; auto. }
  intros [B1 B2]. unfold rangeSetString. rewrite I3. destruct (rt tr =? 0) eqn:Z0.
  - assert (tr = Lf) by (eapply rt_nz; eauto; lia). subst tr. change (text Lf) with (@nil Z) in *.
    destruct buf as [|c buf]; [unfold zlen in B1; cbn in B1; lia|]. reflexivity.
  - rewrite printTree_ok by (auto; lia). cbn [obind]. f_equal. f_equal.
    destruct tr as [|id r tl tr]; [cbn in Z0; lia|].
    unfold printed. destruct (text (Nd id r tl tr)) as [|c s] eqn:ET.
    { exfalso. rewrite text_nd in ET. pose proof (range_text_len (fst r) (snd r)).
      apply app_eq_nil in ET. destruct ET as (_ & ET). apply app_eq_nil in ET. destruct ET as (ET & _).
      rewrite ET in H. unfold zlen in H. cbn in H. lia. }
    cbn [Z.to_nat firstn app]. do 3 f_equal. f_equal. unfold zlen. lia.
Qed.

(** ** C60: reading *)
Lemma digits_dec s : forall acc n rest,
  Forall (fun c => 48 <= c <= 57) s -> (match rest with [] => True | c :: _ => digit c = None \/ exists d, digit c = Some d /\ 10 <= d end) ->
  digits 10 acc n (s ++ rest) = (value s acc, n + zlen s, rest).
Proof.
  induction s as [|c s IH]; intros acc n rest HF HR.
  - cbn [app]. unfold zlen. cbn [length value fold_left]. rewrite Z.add_0_r.
    destruct rest as [|c r]; [reflexivity|]. cbn [digits]. destruct HR as [->|(d & -> & Hd)]; auto.
    replace (d <? 10) with false by lia. auto.
  - apply Forall_cons_iff in HF. destruct HF as (H1 & H2). cbn [app digits].
    unfold digit. replace ((48 <=? c) && (c <=? 57)) with true by lia.
    replace (c - 48 <? 10) with true by lia. rewrite IH by auto. unfold zlen. cbn [length value fold_left].
    unfold value. f_equal. f_equal. lia.
Qed.

Lemma scanu_dec d v rest : is_dec d v -> is_u32 v ->
  (match rest with [] => True | c :: _ => digit c = None end) ->
  scanu (d ++ rest) = Some (v, rest).
Proof.
  intros (D1 & D2 & D3 & D4) HU HR. unfold scanu.
  destruct d as [|c d]; [congruence|]. apply Forall_cons_iff in D2 as D2'. destruct D2' as (C & _).
  assert (SK : skip isspace ((c :: d) ++ rest) = (c :: d) ++ rest).
  { cbn [app skip]. unfold isspace. replace ((c =? 32) || (9 <=? c) && (c <=? 13)) with false by lia. auto. }
  rewrite SK. cbn [app]. replace (c =? 45) with false by lia. replace (c =? 43) with false by lia.
  change (c :: d ++ rest) with ((c :: d) ++ rest). rewrite digits_dec; auto.
  2:{ destruct rest; auto. }
  assert (zlen (c :: d) > 0) by (unfold zlen; cbn [length]; lia).
  replace (0 + zlen (c :: d) =? 0) with false by lia.
  change (value (c :: d) 0) with (fold_left (fun a c => a * 10 + (c - 48)) (c :: d) 0). rewrite D3.
  unfold is_u32, UINT_MAX, ULONG_MAX in *. replace (18446744073709551615 <? v) with false by lia.
  unfold u32. rewrite Z.mod_small by (unfold two32; lia). auto.
Qed.

Lemma split_at_none s c : (forall x, In x s -> x <> c) -> split_at c s = None.
Proof.
  induction s as [|x s IH]; cbn; auto. intros H. replace (x =? c) with false by (specialize (H x (or_introl eq_refl)); lia).
  rewrite IH; auto.
Qed.
Lemma split_at_some s c : In c s -> split_at c s <> None.
Proof.
  induction s as [|x s IH]; cbn; [tauto|]. intros [->|H].
  - rewrite Z.eqb_refl. congruence.
  - destruct (x =? c); [congruence|]. apply IH in H. destruct (split_at c s) as [[a b]|]; congruence.
Qed.

Lemma one_str t r tok : is_range_text (tok ++ [44]) r -> range_u32 r ->
  rangeSetAddOneStr t tok = rangeSetAdd t (fst r) (snd r).
Proof.
  intros (a & Da & H) [U1 U2]. unfold rangeSetAddOneStr.
  assert (NA : forall v d x, is_dec d v -> In x d -> x <> 45 /\ x <> 44 /\ x <> 32).
  { intros v d x (_ & F & _) Hx. rewrite Forall_forall in F. apply F in Hx. lia. }
  destruct H as [(E & H)|(E & b & Db & H)].
  - apply app_inv_tail in H. subst tok.
    rewrite split_at_none by (intros x Hx; destruct (NA _ _ _ Da Hx); auto).
    rewrite <- (app_nil_r a) at 1. rewrite (scanu_dec a (fst r) []) by auto. rewrite E at 2. auto.
  - assert (tok = a ++ 45 :: b).
    { change (a ++ [45] ++ b ++ [44]) with (a ++ (45 :: b) ++ [44]) in H. rewrite app_assoc in H.
      apply app_inv_tail in H. auto. }
    subst tok. destruct (split_at 45 (a ++ 45 :: b)) eqn:S.
    2:{ exfalso. apply (split_at_some (a ++ 45 :: b) 45); auto. apply in_or_app; cbn; auto. }
    rewrite (scanu_dec a (fst r) (45 :: b)) by (auto; reflexivity). cbn [Z.eqb].
    change (Pos.eqb 45 45) with true. cbv iota.
    rewrite <- (app_nil_r b) at 1. rewrite (scanu_dec b (snd r) []) by auto.
    destruct (snd r <? fst r) eqn:L; auto. unfold rangeSetAdd. rewrite L. auto.
Qed.

Lemma range_text_tok s r : is_range_text s r ->
  exists tok, s = tok ++ [44] /\ tok <> [] /\ forall x, In x tok -> x <> 44 /\ x <> 32.
Proof.
  assert (NA : forall v d x, is_dec d v -> In x d -> x <> 45 /\ x <> 44 /\ x <> 32).
  { intros v d x (_ & F & _) Hx. rewrite Forall_forall in F. apply F in Hx. lia. }
  intros (a & Da & [(_ & ->)|(_ & b & Db & ->)]).
  - exists a. split; auto. split; [apply Da|]. intros x Hx. destruct (NA _ _ _ Da Hx) as (_ & H). auto.
  - exists (a ++ 45 :: b). split; [rewrite <- app_assoc; auto|].
    split; [destruct a; cbn; congruence|]. intros x Hx. apply in_app_or in Hx. destruct Hx as [Hx|[<-|Hx]].
    + destruct (NA _ _ _ Da Hx) as (_ & H). auto.
    + lia.
    + destruct (NA _ _ _ Db Hx) as (_ & H). auto.
Qed.

Lemma list_toks parts : forall l, Forall2 is_range_text parts l ->
  exists tks, pieces [44; 32] (concat parts) tks /\ Forall2 (fun t r => is_range_text (t ++ [44]) r) tks l.
Proof.
  induction parts as [|s parts IH]; intros l H; inversion H as [|s' r p' l' H1 H2]; subst.
  - exists []. split; [apply pieces_nil; intros c []|constructor].
  - destruct (IH _ H2) as (tks & P & F). destruct (range_text_tok _ _ H1) as (tok & -> & T1 & T2).
    exists (tok :: tks). split; [|constructor; auto].
    cbn [concat]. rewrite <- app_assoc. cbn [app].
    apply (pieces_cons [44; 32] [] tok 44 (concat parts) tks); auto.
    + intros c [].
    + intros c Hc. destruct (T2 c Hc). cbn. intuition lia.
    + cbn; auto.
Qed.

Lemma addToks_all tks : forall t l lo hi, Forall2 (fun tk r => is_range_text (tk ++ [44]) r) tks l ->
  Forall range_u32 l -> Forall (acceptable lo hi) l -> lowest t = lo -> highest t = hi -> is_u32 lo -> is_u32 hi ->
  addToks t tks = (add_all t l, true).
Proof.
  induction tks as [|tk tks IH]; intros t l lo hi H HU HA HL HH Ulo Uhi; inversion H as [|s' r p' l' H1 H2]; subst; auto.
  apply Forall_cons_iff in HU, HA. destruct HU as (U1 & U2). destruct HA as (A1 & A2).
  cbn [addToks add_all]. rewrite (one_str t r tk H1 U1). destruct r as [f e]. cbn [fst snd].
  pose proof (add_decides t _ _ (f, e) eq_refl eq_refl Ulo Uhi U1) as D.
  apply accepts_iff in A1. rewrite A1 in D. cbn [fst snd] in D.
  destruct (rangeSetAdd t f e) as [t'|] eqn:E; [|congruence].
  apply (IH t' l' (lowest t) (highest t)); auto; unfold rangeSetAdd in E;
    destruct (e <? f); try discriminate; destruct (_ && _); try discriminate; destruct (_ && _); try discriminate;
    inversion E; reflexivity.
Qed.

Lemma addStr_ok t lo hi s l :
  created t lo hi -> is_list_text s l -> Forall range_u32 l -> Forall (acceptable lo hi) l ->
  zlen s <= 1024 -> rangeSetAddStr t s = Ok (add_all t l, true).
Proof.
  intros HC (parts & -> & HP) HU HA HL. unfold rangeSetAddStr.
  rewrite firstn_all2 by (unfold zlen in HL; lia).
  destruct (toks_total [44; 32] (length (concat parts)) (concat parts) (le_n _)) as (tk & E).
  rewrite E. cbn [obind]. f_equal. apply toks_pieces in E.
  destruct (list_toks _ _ HP) as (tks & P & F).
  assert (tk = tks) by (eapply pieces_unique; eauto). subst tk.
  destruct (inv_create _ _ _ HC) as (_ & _ & _ & Ulo & Uhi).
  assert (LH : lowest t = lo /\ highest t = hi).
  { destruct HC as [(-> & -> & ->)|(E' & _)]; [auto|]. unfold rangeSetCreateLimited in E'.
    destruct (hi <=? lo); inversion E'; auto. }
  destruct LH. eapply addToks_all; eauto.
Qed.

(** ** Refutations of C32 and C60 *)
Lemma string_overflow :
  exists t, rangeSetUpdate isort 2 (add_all rangeSetCreate [(10, 99); (200, 200)]) = Ok t /\
    rangeSetString 2 t [7; 7; 7; 7] = UB.
Proof. eexists. split; [vm_compute; reflexivity|]. vm_compute. reflexivity. Qed.

Lemma string_cut :
  exists t, rangeSetUpdate isort 1 (add_all rangeSetCreate [(1, 100)]) = Ok t /\
    rangeSetString 1 t [7; 7; 7; 7] = Ok (str "1-1" ++ [0], 0).
Proof. eexists. split; [vm_compute; reflexivity|]. vm_compute. reflexivity. Qed.

Definition long_list : list range := repeat (1111, 1111) 204 ++ [(22222, 22222)].
Lemma addStr_cut :
  exists s l t, is_list_text s l /\ Forall (acceptable 1 65535) l /\ In (22222, 22222) l /\
    ~ covered l 2222 /\
    rangeSetAddStr rangeSetCreate s = Ok (t, true) /\
    exists u, rangeSetUpdate isort 300 t = Ok u /\
      rangeSetIn 300 u 22222 = Ok false /\ rangeSetIn 300 u 2222 = Ok true.
Proof.
  exists (concat (map (fun r => range_text (fst r) (snd r)) long_list)), long_list.
  set (s := concat (map (fun r => range_text (fst r) (snd r)) long_list)).
  assert (R : match rangeSetAddStr rangeSetCreate s with
              | Ok (t, true) =>
                  match rangeSetUpdate isort 300 t with
                  | Ok u => (rangeSetIn 300 u 22222, rangeSetIn 300 u 2222) = (Ok false, Ok true)
                  | _ => False
                  end
              | _ => False
              end) by (vm_compute; reflexivity).
  destruct (rangeSetAddStr rangeSetCreate s) as [[t [|]]| | |] eqn:E1; try contradiction.
  destruct (rangeSetUpdate isort 300 t) as [u| | |] eqn:E2; try contradiction.
  exists t.
  assert (I : forall f e, In (f, e) long_list -> (f, e) = (1111, 1111) \/ (f, e) = (22222, 22222)).
  { unfold long_list. intros f e K. apply in_app_or in K. destruct K as [K|[K|[]]]; auto.
    apply repeat_spec in K. auto. }
  split.
  { exists (map (fun r => range_text (fst r) (snd r)) long_list). split; [reflexivity|].
    assert (U : Forall range_u32 long_list).
    { rewrite Forall_forall. intros [f e] K. apply I in K. destruct K as [K|K]; inversion K;
      unfold range_u32, is_u32, UINT_MAX; cbn; lia. }
    clear - U. induction U; cbn [map]; constructor; auto. apply range_text_ok; auto. }
  split.
  { rewrite Forall_forall. intros [f e] K. apply I in K. destruct K as [K|K]; inversion K;
      unfold acceptable; cbn; lia. }
  split; [apply in_or_app; right; left; reflexivity|].
  split. { intros (f & e & K & Hv). apply I in K. destruct K as [K|K]; inversion K; lia. }
  split; [reflexivity|]. exists u. split; auto. split; congruence.
Qed.
