(** Generic lemmas on the array operations of Base. *)
From Verif Require Import Base.

Lemma upd_length : forall A (l : list A) i v, length (upd l i v) = length l.
Proof. induction l as [|x l IH]; intros [|i] v; simpl; auto. Qed.

Lemma nth_error_upd_eq : forall A (l : list A) i v,
  (i < length l)%nat -> nth_error (upd l i v) i = Some v.
Proof. induction l as [|x l IH]; intros [|i] v H; simpl in *; auto; try lia. apply IH; lia. Qed.

Lemma nth_error_upd_neq : forall A (l : list A) i j v,
  i <> j -> nth_error (upd l i v) j = nth_error l j.
Proof. induction l as [|x l IH]; intros [|i] [|j] v H; simpl in *; auto; try lia. Qed.

Lemma zupd_length : forall A (l : list A) i v, length (zupd l i v) = length l.
Proof. intros. unfold zupd. destruct (i <? 0); [reflexivity|apply upd_length]. Qed.

Lemma zlen_zupd : forall A (l : list A) i v, zlen (zupd l i v) = zlen l.
Proof. intros. unfold zlen. rewrite zupd_length. reflexivity. Qed.

Lemma znth_some_range : forall A (l : list A) i v,
  znth l i = Some v -> 0 <= i < zlen l.
Proof.
  unfold znth, zlen. intros A l i v H. destruct (i <? 0) eqn:E; [discriminate|].
  assert (Hs : nth_error l (Z.to_nat i) <> None) by congruence.
  apply nth_error_Some in Hs. lia.
Qed.

Lemma znth_in_range : forall A (l : list A) i,
  0 <= i < zlen l -> exists v, znth l i = Some v.
Proof.
  unfold znth, zlen. intros A l i H. destruct (i <? 0) eqn:E; [lia|].
  destruct (nth_error l (Z.to_nat i)) eqn:E2; [eauto|].
  apply nth_error_None in E2. lia.
Qed.

Lemma znth_none_range : forall A (l : list A) i,
  znth l i = None -> i < 0 \/ zlen l <= i.
Proof.
  unfold znth, zlen. intros A l i H. destruct (i <? 0) eqn:E; [lia|].
  apply nth_error_None in H. lia.
Qed.

Lemma znth_out : forall A (l : list A) i, i < 0 \/ zlen l <= i -> znth l i = None.
Proof.
  intros A l i H. destruct (znth l i) eqn:E; [|reflexivity].
  apply znth_some_range in E. lia.
Qed.

Lemma znth_In : forall A (l : list A) i v, znth l i = Some v -> In v l.
Proof.
  unfold znth. intros A l i v H. destruct (i <? 0); [discriminate|].
  eapply nth_error_In; eauto.
Qed.

Lemma In_znth : forall A (l : list A) v, In v l -> exists i, znth l i = Some v.
Proof.
  intros A l v H. apply In_nth_error in H. destruct H as [n Hn].
  exists (Z.of_nat n). unfold znth. destruct (Z.of_nat n <? 0) eqn:E; [lia|].
  rewrite Nat2Z.id. assumption.
Qed.

Lemma znth_zupd_eq : forall A (l : list A) i v,
  0 <= i < zlen l -> znth (zupd l i v) i = Some v.
Proof.
  unfold znth, zupd, zlen. intros A l i v H. destruct (i <? 0) eqn:E; [lia|].
  apply nth_error_upd_eq. lia.
Qed.

Lemma znth_zupd_neq : forall A (l : list A) i j v,
  i <> j -> znth (zupd l i v) j = znth l j.
Proof.
  unfold znth, zupd. intros A l i j v H.
  destruct (j <? 0) eqn:E; [reflexivity|].
  destruct (i <? 0) eqn:E2; [reflexivity|].
  apply nth_error_upd_neq. lia.
Qed.

Lemma znth_zupd : forall A (l : list A) i j v,
  znth (zupd l i v) j = if (i =? j) && (0 <=? i) && (i <? zlen l) then Some v else znth l j.
Proof.
  intros A l i j v.
  destruct ((i =? j) && (0 <=? i) && (i <? zlen l)) eqn:E.
  - apply andb_true_iff in E. destruct E as [E E3].
    apply andb_true_iff in E. destruct E as [E1 E2].
    assert (i = j) by lia. subst. apply znth_zupd_eq. lia.
  - destruct (Z.eq_dec i j); [|apply znth_zupd_neq; assumption].
    subst. unfold zupd. destruct (j <? 0) eqn:E4; [reflexivity|].
    assert (Hj : zlen l <= j) by lia.
    rewrite (znth_out _ l j) by lia.
    apply znth_out. right. unfold zlen in *. rewrite upd_length. assumption.
Qed.

Lemma znth_ext : forall A (l1 l2 : list A),
  zlen l1 = zlen l2 -> (forall i, 0 <= i < zlen l1 -> znth l1 i = znth l2 i) -> l1 = l2.
Proof.
  intros A l1. induction l1 as [|x l1 IH]; intros l2 Hl H.
  - destruct l2; [reflexivity|]. unfold zlen in Hl. simpl in Hl. lia.
  - destruct l2 as [|y l2]; [unfold zlen in Hl; simpl in Hl; lia|].
    assert (Hxy : x = y).
    { assert (H0 := H 0). unfold znth in H0. simpl in H0.
      assert (Some x = Some y) by (apply H0; unfold zlen; simpl; lia). congruence. }
    subst. f_equal. apply IH.
    + unfold zlen in *. simpl in Hl. lia.
    + intros i Hi. assert (Hs := H (i + 1)).
      unfold znth, zlen in *.
      destruct (i <? 0) eqn:E1; [lia|]. destruct (i + 1 <? 0) eqn:E2; [lia|].
      replace (Z.to_nat (i + 1)) with (S (Z.to_nat i)) in Hs by lia.
      simpl in Hs. apply Hs. simpl. lia.
Qed.

Lemma aget_ok : forall A (l : list A) i v, aget l i = Ok v <-> znth l i = Some v.
Proof. unfold aget. intros. destruct (znth l i); split; congruence. Qed.

Lemma aget_in_range : forall A (l : list A) i,
  0 <= i < zlen l -> exists v, aget l i = Ok v /\ znth l i = Some v.
Proof. intros A l i H. apply znth_in_range in H. destruct H as [v H]. exists v. rewrite aget_ok. auto. Qed.

Lemma aset_in_range : forall A (l : list A) i v,
  0 <= i < zlen l -> aset l i v = Ok (zupd l i v).
Proof. intros A l i v H. unfold aset. apply znth_in_range in H. destruct H as [w ->]. reflexivity. Qed.

Lemma aset_ok : forall A (l l' : list A) i v, aset l i v = Ok l' ->
  0 <= i < zlen l /\ l' = zupd l i v.
Proof.
  unfold aset. intros A l l' i v H. destruct (znth l i) eqn:E; [|discriminate].
  apply znth_some_range in E. inversion H. auto.
Qed.

Lemma znth_nth_error : forall A (l : list A) n,
  znth l (Z.of_nat n) = nth_error l n.
Proof. intros. unfold znth. destruct (Z.of_nat n <? 0) eqn:E; [lia|]. rewrite Nat2Z.id. reflexivity. Qed.

Lemma znth_map : forall A B (f : A -> B) l i,
  znth (map f l) i = option_map f (znth l i).
Proof.
  intros. unfold znth. destruct (i <? 0); [reflexivity|].
  apply nth_error_map.
Qed.

Lemma zlen_map : forall A B (f : A -> B) l, zlen (map f l) = zlen l.
Proof. intros. unfold zlen. rewrite map_length. reflexivity. Qed.

Lemma zlen_nonneg : forall A (l : list A), 0 <= zlen l.
Proof. intros. unfold zlen. lia. Qed.

Lemma zlen_repeat : forall A (x : A) n, zlen (repeat x n) = Z.of_nat n.
Proof. intros. unfold zlen. rewrite repeat_length. reflexivity. Qed.

Lemma nth_error_repeat_lt : forall A (x : A) n i, (i < n)%nat -> nth_error (repeat x n) i = Some x.
Proof. induction n; intros [|i] H; simpl; auto; try lia. apply IHn. lia. Qed.

Lemma znth_repeat : forall A (x : A) n i, 0 <= i < Z.of_nat n -> znth (repeat x n) i = Some x.
Proof.
  intros. unfold znth. destruct (i <? 0) eqn:E; [lia|]. apply nth_error_repeat_lt. lia.
Qed.

(** Counting. *)
Definition countb {A} (f : A -> bool) (l : list A) : Z := zlen (filter f l).

Lemma countb_upd : forall A (f : A -> bool) (l : list A) i v w,
  nth_error l i = Some w ->
  countb f (upd l i v) = countb f l - (if f w then 1 else 0) + (if f v then 1 else 0).
Proof.
  unfold countb, zlen. induction l as [|x l IH]; intros [|i] v w H;
    cbn [nth_error upd filter] in *; try discriminate.
  - injection H as ->. destruct (f w), (f v); cbn [length]; lia.
  - specialize (IH i v w H). destruct (f x), (f w), (f v); cbn [length]; lia.
Qed.

Lemma countb_zupd : forall A (f : A -> bool) (l : list A) i v w,
  znth l i = Some w ->
  countb f (zupd l i v) = countb f l - (if f w then 1 else 0) + (if f v then 1 else 0).
Proof.
  unfold znth, zupd. intros A f l i v w H. destruct (i <? 0); [discriminate|].
  apply countb_upd. assumption.
Qed.

Lemma countb_nonneg : forall A (f : A -> bool) l, 0 <= countb f l.
Proof. intros. unfold countb. apply zlen_nonneg. Qed.

Lemma countb_le : forall A (f : A -> bool) (l : list A), countb f l <= zlen l.
Proof.
  unfold countb, zlen. induction l as [|x l IH]; simpl; [lia|]. destruct (f x); simpl; lia.
Qed.

Lemma countb_full : forall A (f : A -> bool) (l : list A),
  countb f l = zlen l -> forall x, In x l -> f x = true.
Proof.
  induction l as [|y l IH]; intros H x Hin; [destruct Hin|].
  assert (Hle := countb_le A f l).
  unfold countb, zlen in *. simpl in *. destruct (f y) eqn:E; simpl in *; [|lia].
  destruct Hin as [->|Hin]; [assumption|]. apply IH; [lia|assumption].
Qed.

Lemma countb_not_full : forall A (f : A -> bool) (l : list A),
  countb f l < zlen l -> exists i x, znth l i = Some x /\ f x = false.
Proof.
  induction l as [|y l IH]; intros H; [unfold countb, zlen in H; simpl in H; lia|].
  destruct (f y) eqn:E.
  - destruct IH as [i [x [Hi Hx]]].
    { unfold countb, zlen in *. simpl in H. rewrite E in H. simpl in H. lia. }
    exists (i + 1), x. split; [|assumption].
    assert (Hr := znth_some_range _ _ _ _ Hi).
    unfold znth in *. destruct (i <? 0) eqn:E1; [lia|]. destruct (i + 1 <? 0) eqn:E2; [lia|].
    replace (Z.to_nat (i + 1)) with (S (Z.to_nat i)) by lia. assumption.
  - exists 0, y. split; [reflexivity|assumption].
Qed.

Lemma countb_pos : forall A (f : A -> bool) (l : list A),
  0 < countb f l -> exists x, In x l /\ f x = true.
Proof.
  unfold countb, zlen. intros A f l H. destruct (filter f l) eqn:E; [simpl in H; lia|].
  exists a. apply filter_In. rewrite E. left; reflexivity.
Qed.

Lemma countb_zero : forall A (f : A -> bool) (l : list A),
  countb f l = 0 -> forall x, In x l -> f x = false.
Proof.
  unfold countb, zlen. intros A f l H x Hin. destruct (f x) eqn:E; [|reflexivity].
  assert (Hf : In x (filter f l)) by (apply filter_In; auto).
  destruct (filter f l); [destruct Hf|simpl in H; lia].
Qed.

Lemma countb_none : forall A (f : A -> bool) (l : list A),
  (forall x, In x l -> f x = false) -> countb f l = 0.
Proof.
  intros A f l H. unfold countb. induction l as [|a l IH]; [reflexivity|].
  simpl. rewrite (H a) by (left; reflexivity). apply IH. intros; apply H; right; assumption.
Qed.
