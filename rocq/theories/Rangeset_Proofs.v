(** Proofs about range sets. *)
From Coq Require Import Permutation Sorted.
From Verif Require Import Base Lists Cstr_Model Rangeset_Model Rangeset_Spec.

(** ** Heaps *)
Lemma hset_eq h p n : hset h p n p = n.
Proof. unfold hset. rewrite Z.eqb_refl. auto. Qed.
Lemma hset_neq h p n q : q <> p -> hset h p n q = h q.
Proof. intros H. unfold hset. destruct (q =? p) eqn:E; auto. lia. Qed.

(** ** Trees in the heap *)
Inductive tree := Lf | Nd (id : Z) (r : range) (tl tr : tree).
Definition rt (t : tree) : Z := match t with Lf => 0 | Nd id _ _ _ => id end.
Fixpoint ids (t : tree) : list Z :=
  match t with Lf => [] | Nd id _ tl tr => ids tl ++ id :: ids tr end.
Fixpoint ranges (t : tree) : list range :=
  match t with Lf => [] | Nd _ r tl tr => ranges tl ++ r :: ranges tr end.
Fixpoint rep (h : heap) (t : tree) : Prop :=
  match t with
  | Lf => True
  | Nd id r tl tr =>
      id <> 0 /\ h id = Some (mkN (fst r) (snd r) (rt tl) (rt tr)) /\ rep h tl /\ rep h tr
  end.
Fixpoint depth (t : tree) : nat :=
  match t with Lf => O | Nd _ _ tl tr => S (Nat.max (depth tl) (depth tr)) end.

Lemma rep_ext h h' t : (forall x, In x (ids t) -> h' x = h x) -> rep h t -> rep h' t.
Proof.
  induction t as [|id r tl IHl tr IHr]; cbn; auto.
  intros E (H1 & H2 & H3 & H4). split; auto. split.
  - rewrite E; auto. apply in_or_app; cbn; auto.
  - split; [apply IHl|apply IHr]; auto; intros x Hx; apply E; apply in_or_app; cbn; auto.
Qed.

Lemma rt_nz h t : rep h t -> rt t = 0 -> t = Lf.
Proof. destruct t; cbn; auto. intros (H & _) E. congruence. Qed.

Lemma inorder_rep h t : forall fuel, rep h t -> (depth t <= fuel)%nat ->
  inorder fuel h (rt t) = Ok (ranges t).
Proof.
  induction t as [|id r tl IHl tr IHr]; intros fuel R D.
  - destruct fuel; reflexivity.
  - cbn [rep depth rt] in *. destruct R as (H1 & H2 & H3 & H4).
    destruct fuel as [|fuel]; [lia|]. cbn [inorder].
    replace (id =? 0) with false by lia. unfold load. rewrite H2. cbn [obind left right].
    rewrite IHl by (auto; lia). cbn [obind]. rewrite IHr by (auto; lia). cbn [obind first last ranges].
    destruct r; reflexivity.
Qed.

(** ** Searching *)
Fixpoint ordered (t : tree) : Prop :=
  match t with
  | Lf => True
  | Nd _ (f, e) tl tr =>
      f <= e /\ (forall f' e', In (f', e') (ranges tl) -> e' < f) /\
      (forall f' e', In (f', e') (ranges tr) -> e < f') /\ ordered tl /\ ordered tr
  end.

Lemma search_rep h t v : forall fuel, rep h t -> ordered t -> (depth t <= fuel)%nat ->
  exists b, isInTree fuel h (rt t) v = Ok b /\ (b = true <-> covered (ranges t) v).
Proof.
  induction t as [|id [f e] tl IHl tr IHr]; intros fuel R O D.
  - exists false. split; [destruct fuel; reflexivity|]. split; [discriminate|].
    intros (f & e & [] & _).
  - cbn [rep depth rt ordered] in *. destruct R as (H1 & H2 & H3 & H4).
    destruct O as (O1 & O2 & O3 & O4 & O5).
    destruct fuel as [|fuel]; [lia|]. cbn [isInTree].
    replace (id =? 0) with false by lia. unfold load. rewrite H2. cbn [obind first last left right fst snd].
    destruct (v <? f) eqn:E1; [|destruct (e <? v) eqn:E2].
    + destruct (IHl fuel) as (b & Hb & Hc); auto; [lia|]. exists b. split; auto. rewrite Hc.
      unfold covered. cbn [ranges]. split; intros (f' & e' & Hin & Hv).
      * exists f', e'. split; auto. apply in_or_app; auto.
      * apply in_app_or in Hin. destruct Hin as [Hin|[K|Hin]].
        { exists f', e'. auto. } { inversion K; subst. lia. }
        { apply O3 in Hin. lia. }
    + destruct (IHr fuel) as (b & Hb & Hc); auto; [lia|]. exists b. split; auto. rewrite Hc.
      unfold covered. cbn [ranges]. split; intros (f' & e' & Hin & Hv).
      * exists f', e'. split; auto. apply in_or_app; cbn; auto.
      * apply in_app_or in Hin. destruct Hin as [Hin|[K|Hin]].
        { apply O2 in Hin. lia. } { inversion K; subst. lia. }
        { exists f', e'. auto. }
    + exists true. split; auto. split; auto. intros _. exists f, e. split; [|lia].
      cbn [ranges]. apply in_or_app; cbn; auto.
Qed.

(** ** Canonical lists *)
Lemma canonical_tail r l : canonical (r :: l) -> canonical l.
Proof. destruct r. cbn. tauto. Qed.

Lemma canonical_head_lt f e l : canonical ((f, e) :: l) ->
  f <= e /\ forall f' e', In (f', e') l -> e + 1 < f' /\ f' <= e'.
Proof.
  revert f e. induction l as [|[f1 e1] l IH]; intros f e H.
  - cbn in H. split; [tauto|]. intros f' e' [].
  - cbn [canonical] in H. destruct H as (H1 & H2 & H3). split; auto.
    intros f' e' [K|K].
    + inversion K; subst. split; auto. cbn in H3. tauto.
    + destruct (IH f1 e1 H3) as (A & B). apply B in K. lia.
Qed.

Lemma canonical_app a b : canonical (a ++ b) -> canonical a /\ canonical b /\
  forall f e f' e', In (f, e) a -> In (f', e') b -> e + 1 < f'.
Proof.
  induction a as [|[f1 e1] a IH]; cbn [app]; intros H.
  - split; [cbn; auto|]. split; auto. intros f e f' e' [].
  - destruct (canonical_head_lt _ _ _ H) as (A & B).
    pose proof (canonical_tail _ _ H) as T. apply IH in T as (T1 & T2 & T3).
    split; [|split; auto].
    + cbn [canonical]. split; auto. split; auto. destruct a as [|[f2 e2] a]; auto.
      apply (B f2 e2). apply in_or_app; cbn; auto.
    + intros f e f' e' [K|K] L; [inversion K; subst; apply (B f' e'); apply in_or_app; auto|eauto].
Qed.

Lemma canonical_ordered t : canonical (ranges t) -> ordered t.
Proof.
  induction t as [|id [f e] tl IHl tr IHr]; cbn [ranges ordered]; auto. intros H.
  apply canonical_app in H. destruct H as (H1 & H2 & H3).
  destruct (canonical_head_lt _ _ _ H2) as (A & B).
  split; auto. split; [|split; [|split; auto]].
  - intros f' e' K. specialize (H3 _ _ f e K (or_introl eq_refl)). lia.
  - intros f' e' K. apply B in K. lia.
  - apply IHr. eapply canonical_tail; eauto.
Qed.

(** ** Building the balanced tree *)

(** The nodes of the array with their ranges. *)
Definition nds := list (Z * range).
Definition nodes_in (h : heap) (l : nds) : Prop :=
  Forall (fun x => fst x <> 0 /\ exists a b, h (fst x) = Some (mkN (fst (snd x)) (snd (snd x)) a b)) l.

Fixpoint build (fuel : nat) (l : nds) : tree :=
  match l with
  | [] => Lf
  | _ =>
      match fuel with
      | O => Lf
      | S fuel' =>
          let hh := (length l / 2)%nat in
          match nth_error l hh with
          | None => Lf
          | Some (id, r) => Nd id r (build fuel' (firstn hh l)) (build fuel' (skipn (hh + 1) l))
          end
      end
  end.

Lemma half_lt {A} (l : list A) : l <> [] -> (length l / 2 < length l)%nat.
Proof. intros H. destruct l; [congruence|]. apply Nat.div_lt; cbn; lia. Qed.

Lemma split_nth {A} (l : list A) i x : nth_error l i = Some x ->
  l = firstn i l ++ x :: skipn (i + 1) l.
Proof.
  revert i. induction l as [|y l IH]; intros [|i] H; cbn in *; try discriminate.
  - inversion H; auto.
  - f_equal. apply IH; auto.
Qed.

Lemma build_ids fuel : forall l, (length l <= fuel)%nat -> ids (build fuel l) = map fst l.
Proof.
  induction fuel as [|fuel IH]; intros l H.
  - destruct l; [auto|cbn in H; lia].
  - destruct l as [|x0 l0]; [auto|]. set (l := x0 :: l0) in *. cbn [build].
    assert (Hne : l <> []) by (unfold l; congruence).
    pose proof (half_lt l Hne) as Hh. set (hh := (length l / 2)%nat) in *.
    change (match l with [] => Lf | _ :: _ => match nth_error l hh with
      | Some (id, r) => Nd id r (build fuel (firstn hh l)) (build fuel (skipn (hh+1) l)) | None => Lf end end)
      with (match nth_error l hh with
      | Some (id, r) => Nd id r (build fuel (firstn hh l)) (build fuel (skipn (hh+1) l)) | None => Lf end).
    destruct (nth_error l hh) as [[id r]|] eqn:E; [|apply nth_error_None in E; lia].
    cbn [ids]. rewrite !IH.
    + pose proof (split_nth _ _ _ E) as S. rewrite S at 3. rewrite map_app. reflexivity.
    + rewrite skipn_length. lia.
    + rewrite firstn_length. lia.
Qed.

Lemma build_ranges fuel : forall l, (length l <= fuel)%nat -> ranges (build fuel l) = map snd l.
Proof.
  induction fuel as [|fuel IH]; intros l H.
  - destruct l; [auto|cbn in H; lia].
  - destruct l as [|x0 l0]; [auto|]. set (l := x0 :: l0) in *. cbn [build].
    assert (Hne : l <> []) by (unfold l; congruence).
    pose proof (half_lt l Hne) as Hh. set (hh := (length l / 2)%nat) in *.
    change (match l with [] => Lf | _ :: _ => match nth_error l hh with
      | Some (id, r) => Nd id r (build fuel (firstn hh l)) (build fuel (skipn (hh+1) l)) | None => Lf end end)
      with (match nth_error l hh with
      | Some (id, r) => Nd id r (build fuel (firstn hh l)) (build fuel (skipn (hh+1) l)) | None => Lf end).
    destruct (nth_error l hh) as [[id r]|] eqn:E; [|apply nth_error_None in E; lia].
    cbn [ranges]. rewrite !IH.
    + pose proof (split_nth _ _ _ E) as S. rewrite S at 3. rewrite map_app. reflexivity.
    + rewrite skipn_length. lia.
    + rewrite firstn_length. lia.
Qed.

Lemma build_depth fuel : forall l, (length l <= fuel)%nat ->
  (depth (build fuel l) <= match length l with O => 0 | S _ => Nat.log2 (length l) + 1 end)%nat.
Proof.
  induction fuel as [|fuel IH]; intros l H.
  - destruct l; [auto|cbn in H; lia].
  - destruct l as [|x0 l0]; [auto|]. set (l := x0 :: l0) in *.
    assert (Hne : l <> []) by (unfold l; congruence).
    pose proof (half_lt l Hne) as Hh.
    change (build (S fuel) l) with (match nth_error l (length l / 2) with
      | Some (id, r) => Nd id r (build fuel (firstn (length l / 2) l)) (build fuel (skipn (length l / 2 +1) l)) | None => Lf end).
    assert (HL : length l = S (length l0)) by reflexivity.
    set (hh := (length l / 2)%nat) in *.
    destruct (nth_error l hh) as [[id r]|] eqn:E; [|apply nth_error_None in E; lia].
    cbn [depth].
    assert (L1 : length (firstn hh l) = hh) by (rewrite firstn_length; lia).
    assert (L2 : length (skipn (hh + 1) l) = (length l - (hh + 1))%nat) by apply skipn_length.
    assert (D1 := IH (firstn hh l)). assert (D2 := IH (skipn (hh + 1) l)).
    rewrite L1 in D1. rewrite L2 in D2.
    specialize (D1 ltac:(lia)). specialize (D2 ltac:(lia)).
    assert (L3 : (length l - (hh + 1) <= hh)%nat).
    { unfold hh. pose proof (Nat.div_mod (length l) 2 ltac:(lia)).
      pose proof (Nat.mod_upper_bound (length l) 2 ltac:(lia)). lia. }
    rewrite HL. rewrite <- HL.
    destruct (Nat.eq_dec hh 0) as [Z0|Z0].
    + replace (length l - (hh + 1))%nat with 0%nat in D2 by lia. rewrite Z0 in *. lia.
    + assert (G : (Nat.log2 hh + 1 = Nat.log2 (length l))%nat).
      { destruct (Nat.log2_spec hh ltac:(lia)) as [G1 G2].
        symmetry. apply Nat.log2_unique; [lia|].
        assert (hh * 2 <= length l < hh * 2 + 2)%nat.
        { unfold hh. pose proof (Nat.div_mod (length l) 2 ltac:(lia)).
          pose proof (Nat.mod_upper_bound (length l) 2 ltac:(lia)). lia. }
        replace (Nat.log2 hh + 1)%nat with (S (Nat.log2 hh)) by lia.
        rewrite !Nat.pow_succ_r' in *. lia. }
      assert (D1' : (depth (build fuel (firstn hh l)) <= Nat.log2 hh + 1)%nat) by (destruct hh; lia).
      assert (D2' : (depth (build fuel (skipn (hh + 1) l)) <= Nat.log2 hh + 1)%nat).
      { destruct (length l - (hh + 1))%nat eqn:Q; [lia|].
        pose proof (Nat.log2_le_mono (S n) hh ltac:(lia)). lia. }
      lia.
Qed.

(** One step of insertNode when the child is free. *)
Lemma insertNode_left fuel h p n xp xn :
  h p = Some xp -> h n = Some xn -> n <> p -> first xn < first xp -> left xp = 0 ->
  exists h', insertNode (S fuel) h p n = Ok h' /\
    h' p = Some (with_left xp n) /\ h' n = Some (mkN (first xn) (last xn) 0 0) /\
    forall q, q <> p -> q <> n -> h' q = h q.
Proof.
  intros Hp Hn Hd Hk Hl. cbn [insertNode]. unfold load at 1. rewrite Hn. cbn [obind].
  unfold load at 1. rewrite Hp. cbn [obind]. replace (first xn <? first xp) with true by lia.
  rewrite Hl. cbn [Z.eqb]. unfold store at 1. rewrite Hn. cbn [obind].
  unfold load. rewrite hset_neq by auto. rewrite Hp. cbn [obind]. unfold store.
  rewrite hset_neq by auto. rewrite Hp. eexists. split; [reflexivity|].
  split; [apply hset_eq|]. split; [rewrite hset_neq by auto; apply hset_eq|].
  intros q Q1 Q2. rewrite !hset_neq by auto. auto.
Qed.

Lemma insertNode_right fuel h p n xp xn :
  h p = Some xp -> h n = Some xn -> n <> p -> first xp <= first xn -> right xp = 0 ->
  exists h', insertNode (S fuel) h p n = Ok h' /\
    h' p = Some (with_right xp n) /\ h' n = Some (mkN (first xn) (last xn) 0 0) /\
    forall q, q <> p -> q <> n -> h' q = h q.
Proof.
  intros Hp Hn Hd Hk Hl. cbn [insertNode]. unfold load at 1. rewrite Hn. cbn [obind].
  unfold load at 1. rewrite Hp. cbn [obind]. replace (first xn <? first xp) with false by lia.
  rewrite Hl. cbn [Z.eqb]. unfold store at 1. rewrite Hn. cbn [obind].
  unfold load. rewrite hset_neq by auto. rewrite Hp. cbn [obind]. unfold store.
  rewrite hset_neq by auto. rewrite Hp. eexists. split; [reflexivity|].
  split; [apply hset_eq|]. split; [rewrite hset_neq by auto; apply hset_eq|].
  intros q Q1 Q2. rewrite !hset_neq by auto. auto.
Qed.

(** Where the array is hung. *)
Inductive hang (h : heap) (l : nds) : Z -> option (node * bool) -> Prop :=
| hang_top : hang h l 0 None
| hang_left p xp : p <> 0 -> ~ In p (map fst l) -> h p = Some xp -> left xp = 0 ->
    (forall id r, In (id, r) l -> fst r < first xp) -> hang h l p (Some (xp, true))
| hang_right p xp : p <> 0 -> ~ In p (map fst l) -> h p = Some xp -> right xp = 0 ->
    (forall id r, In (id, r) l -> first xp <= fst r) -> hang h l p (Some (xp, false)).

Definition hung (h : heap) (p : Z) (c : option (node * bool)) (r : Z) : Prop :=
  match c with
  | None => True
  | Some (xp, true) => h p = Some (with_left xp r)
  | Some (xp, false) => h p = Some (with_right xp r)
  end.

Lemma with_left_0 xp : left xp = 0 -> with_left xp 0 = xp.
Proof. destruct xp; cbn. intros ->. reflexivity. Qed.
Lemma with_right_0 xp : right xp = 0 -> with_right xp 0 = xp.
Proof. destruct xp; cbn. intros ->. reflexivity. Qed.

Lemma NoDup_app_l {A} (a b : list A) : NoDup (a ++ b) -> NoDup a.
Proof.
  induction a as [|x a IH]; cbn; intros H; constructor; apply NoDup_cons_iff in H; destruct H as [H1 H2]; auto.
  intros K; apply H1; apply in_or_app; auto.
Qed.
Lemma NoDup_app_r {A} (a b : list A) : NoDup (a ++ b) -> NoDup b.
Proof.
  induction a as [|x a IH]; cbn; intros H; auto. apply NoDup_cons_iff in H; destruct H; auto.
Qed.
Lemma NoDup_app_disj {A} (a b : list A) x : NoDup (a ++ b) -> In x a -> In x b -> False.
Proof.
  induction a as [|y a IH]; cbn; intros H Ha Hb; [tauto|]. apply NoDup_cons_iff in H; destruct H as [H1 H2].
  destruct Ha as [<-|Ha]; auto. apply H1; apply in_or_app; auto.
Qed.

Lemma insertSorted_build fuel : forall l h p c,
  (length l <= fuel)%nat ->
  nodes_in h l -> NoDup (map fst l) ->
  StronglySorted (fun a b : Z * range => fst (snd a) < fst (snd b)) l ->
  hang h l p c ->
  exists h', insertSorted fuel h p (map fst l) = Ok (h', rt (build fuel l)) /\
    rep h' (build fuel l) /\ hung h' p c (rt (build fuel l)) /\
    forall q, q <> p \/ c = None -> ~ In q (map fst l) -> h' q = h q.
Proof.
  induction fuel as [|fuel IH]; intros l h p c HL HN HD HS HG.
  - destruct l; [|cbn in HL; lia]. cbn [map insertSorted build rt]. exists h. split; auto.
    split; [cbn; auto|]. split; auto. destruct HG; cbn; auto.
    + rewrite with_left_0; auto. + rewrite with_right_0; auto.
  - destruct l as [|x0 l0].
    { cbn [map insertSorted build rt]. exists h. split; auto.
      split; [cbn; auto|]. split; auto. destruct HG; cbn; auto.
      + rewrite with_left_0; auto. + rewrite with_right_0; auto. }
    set (l := x0 :: l0) in *.
    assert (Hne : l <> []) by (unfold l; congruence).
    pose proof (half_lt l Hne) as Hh. set (hh := (length l / 2)%nat) in *.
    change (build (S fuel) l) with (match nth_error l hh with
      | Some (id, r) => Nd id r (build fuel (firstn hh l)) (build fuel (skipn (hh +1) l)) | None => Lf end).
    destruct (nth_error l hh) as [[id r]|] eqn:E; [|apply nth_error_None in E; lia].
    pose proof (split_nth _ _ _ E) as SP.
    set (la := firstn hh l) in *. set (lb := skipn (hh + 1) l) in *.
    assert (E' : nth_error (map fst l) hh = Some id) by (rewrite nth_error_map, E; reflexivity).
    assert (EI : insertSorted (S fuel) h p (map fst l) =
      do h1 <- (if p =? 0 then do x <- load h id; store h id (mkN (first x) (last x) 0 0)
                else insertNode (S fuel) h p id);
      do (h2, _) <- insertSorted fuel h1 id (firstn hh (map fst l));
      do (h3, _) <- insertSorted fuel h2 id (skipn (hh + 1) (map fst l));
      Ok (h3, id)).
    { unfold l at 1. cbn [map insertSorted]. rewrite <- map_cons. fold l. rewrite map_length. fold hh.
      rewrite E'. reflexivity. }
    rewrite EI. clear EI.
    rewrite firstn_map, skipn_map. fold la lb.
    assert (La : (length la <= fuel)%nat) by (unfold la; rewrite firstn_length; lia).
    assert (Lb : (length lb <= fuel)%nat) by (unfold lb; rewrite skipn_length; lia).
    rewrite SP in HN, HD, HS, HG. unfold nodes_in in HN. rewrite Forall_app, Forall_cons_iff in HN.
    destruct HN as (HNa & (Hid0 & xl & xr & Hid) & HNb). cbn [fst snd] in Hid0, Hid.
    rewrite map_app in HD. cbn [map fst] in HD.
    assert (HDa : NoDup (map fst la)) by (eapply NoDup_app_l; eauto).
    assert (HDb : NoDup (map fst lb)).
    { apply NoDup_app_r in HD. apply NoDup_cons_iff in HD. tauto. }
    assert (Na : ~ In id (map fst la)). { intros K. eapply NoDup_app_disj; eauto. cbn; auto. }
    assert (Nb : ~ In id (map fst lb)). { apply NoDup_app_r in HD. apply NoDup_cons_iff in HD. tauto. }
    assert (Nab : forall x, In x (map fst la) -> In x (map fst lb) -> False).
    { intros x X1 X2. eapply NoDup_app_disj; eauto. cbn; auto. }
    assert (HSa : StronglySorted (fun a b : Z * range => fst (snd a) < fst (snd b)) la /\
                  StronglySorted (fun a b : Z * range => fst (snd a) < fst (snd b)) lb /\
                  (forall x, In x la -> fst (snd x) < fst r) /\ (forall x, In x lb -> fst r < fst (snd x))).
    { clear - HS. induction la as [|y la IHla]; cbn [app] in HS.
      - apply StronglySorted_inv in HS. destruct HS as [HS1 HS2]. rewrite Forall_forall in HS2.
        split; [constructor|]. split; auto. split; auto. intros x [].
      - apply StronglySorted_inv in HS. destruct HS as [HS1 HS2]. apply IHla in HS1.
        destruct HS1 as (A & B & C & D). rewrite Forall_forall in HS2. split.
        + constructor; auto. rewrite Forall_forall. intros x Hx. apply HS2. apply in_or_app; auto.
        + split; auto. split; auto. intros x [<-|Hx]; auto. apply (HS2 (id, r)). apply in_or_app; cbn; auto. }
    destruct HSa as (HSa & HSb & Ka & Kb).
    (* hang n *)
    assert (ST1 : exists h1, (if p =? 0 then do x <- load h id; store h id (mkN (first x) (last x) 0 0)
                else insertNode (S fuel) h p id) = Ok h1 /\
       h1 id = Some (mkN (fst r) (snd r) 0 0) /\ hung h1 p c id /\
       (forall q, q <> p \/ c = None -> q <> id -> h1 q = h q) /\ (c <> None -> p <> id /\ ~ In p (map fst la) /\ ~ In p (map fst lb)) ).
    { inversion HG as [G1 G2|p' xp P1 P2 P3 P4 P5 G1 G2|p' xp P1 P2 P3 P4 P5 G1 G2]; subst.
      - cbn [Z.eqb]. unfold load, store. rewrite Hid. cbn [obind first last].
        eexists. split; [reflexivity|]. split; [apply hset_eq|]. split; [cbn; auto|].
        split; [intros q _ Q; apply hset_neq; auto|congruence].
      - replace (p =? 0) with false by lia.
        rewrite map_app in P2. cbn [map fst] in P2.
        assert (id <> p). { intros ->. apply P2. apply in_or_app; cbn; auto. }
        destruct (insertNode_left fuel h p id xp _ P3 Hid) as (h1 & I1 & I2 & I3 & I4); auto.
        { cbn [first]. apply (P5 id r). apply in_or_app; cbn; auto. }
        exists h1. split; auto. split; auto. split; auto. split.
        + intros q [Q|Q] Q2; [auto|discriminate].
        + intros _. split; auto. split; intros K; apply P2; apply in_or_app; cbn; auto.
      - replace (p =? 0) with false by lia.
        rewrite map_app in P2. cbn [map fst] in P2.
        assert (id <> p). { intros ->. apply P2. apply in_or_app; cbn; auto. }
        destruct (insertNode_right fuel h p id xp _ P3 Hid) as (h1 & I1 & I2 & I3 & I4); auto.
        { cbn [first]. apply (P5 id r). apply in_or_app; cbn; auto. }
        exists h1. split; auto. split; auto. split; auto. split.
        + intros q [Q|Q] Q2; [auto|discriminate].
        + intros _. split; auto. split; intros K; apply P2; apply in_or_app; cbn; auto. }
    destruct ST1 as (h1 & S1 & S2 & S3 & S4 & S5). rewrite S1. cbn [obind].
    assert (NE : forall (q : Z) (ls : nds), (ls = la \/ ls = lb) -> In q (map fst ls) -> q <> p \/ c = None).
    { intros q ls Hls Hq. destruct c as [c|]; auto. left. destruct S5 as (T1 & T2 & T3); [congruence|].
      intros ->. destruct Hls; subst; tauto. }
    assert (HN1 : forall ls, (ls = la \/ ls = lb) -> nodes_in h ls -> nodes_in h1 ls).
    { intros ls Hls Hn. unfold nodes_in in *. rewrite Forall_forall in *. intros x Hx.
      destruct (Hn x Hx) as (A & a & b & B). split; auto. exists a, b. rewrite S4; auto.
      - eapply NE; eauto. apply in_map; auto.
      - intros K. destruct Hls; subst ls; [apply Na|apply Nb]; rewrite <- K; apply in_map; auto. }
    destruct (IH la h1 id (Some (mkN (fst r) (snd r) 0 0, true))) as (h2 & A1 & A2 & A3 & A4); auto.
    { apply hang_left; auto. intros i0 r0 Hi. cbn [first]. apply (Ka (i0, r0)). auto. }
    rewrite A1. cbn [obind]. cbn [hung with_left first last right] in A3.
    destruct (IH lb h2 id (Some (mkN (fst r) (snd r) (rt (build fuel la)) 0, false)))
      as (h3 & B1 & B2 & B3 & B4); auto.
    { specialize (HN1 lb (or_intror eq_refl) HNb). unfold nodes_in in *. rewrite Forall_forall in *.
      intros x Hx. destruct (HN1 x Hx) as (A & a & b & B). split; auto. exists a, b. rewrite A4; auto.
      - left. intros K. apply Nb. rewrite <- K. apply in_map; auto.
      - intros K. apply (Nab (fst x)); auto. apply in_map; auto. }
    { apply hang_right; auto. intros i0 r0 Hi. cbn [first]. specialize (Kb (i0, r0) Hi). cbn in Kb. lia. }
    rewrite B1. cbn [obind rt]. exists h3. split; auto.
    cbn [hung with_right first last left] in B3.
    split; [|split].
    + cbn [rep]. split; auto. split; auto. split; auto.
      eapply rep_ext; [|exact A2]. intros x Hx. rewrite build_ids in Hx by auto.
      apply B4; [left; intros ->; tauto|]. intros K. eapply Nab; eauto.
    + destruct c as [[xp b]|]; [|cbn; auto]. destruct S5 as (T1 & T2 & T3); [congruence|].
      unfold hung in *. assert (EQ : h3 p = h1 p). { rewrite B4, A4; auto. }
      rewrite EQ. exact S3.
    + intros q Q1 Q2. rewrite SP, map_app in Q2. cbn [map fst] in Q2.
      assert (q <> id) by (intros ->; apply Q2; apply in_or_app; cbn; auto).
      rewrite B4, A4, S4; auto.
      * intros K; apply Q2; apply in_or_app; auto.
      * intros K; apply Q2; apply in_or_app; cbn; auto.
Qed.

(** ** Collecting and freeing the nodes of a tree *)
Fixpoint post (t : tree) : list Z :=
  match t with Lf => [] | Nd id _ tl tr => post tl ++ post tr ++ [id] end.

Lemma storeNodes_rep h t : forall fuel, rep h t -> (depth t <= fuel)%nat ->
  storeNodes fuel h (rt t) = Ok (post t).
Proof.
  induction t as [|id r tl IHl tr IHr]; intros fuel R D.
  - destruct fuel; reflexivity.
  - cbn [rep depth rt] in *. destruct R as (H1 & H2 & H3 & H4).
    destruct fuel as [|fuel]; [lia|]. cbn [storeNodes].
    replace (id =? 0) with false by lia. unfold load. rewrite H2. cbn [obind left right].
    rewrite IHl by (auto; lia). cbn [obind]. rewrite IHr by (auto; lia). cbn [obind]. reflexivity.
Qed.

Lemma post_ids t : Permutation (post t) (ids t).
Proof.
  induction t as [|id r tl IHl tr IHr]; cbn; auto.
  apply Permutation_app; auto. rewrite Permutation_app_comm. cbn. constructor. auto.
Qed.

Lemma treeFree_rep t : forall fuel h, rep h t -> NoDup (ids t) -> (depth t <= fuel)%nat ->
  exists h', treeFree fuel h (rt t) = Ok h' /\
    (forall q, In q (ids t) -> h' q = None) /\ (forall q, ~ In q (ids t) -> h' q = h q).
Proof.
  induction t as [|id r tl IHl tr IHr]; intros fuel h R ND D.
  - exists h. split; [destruct fuel; reflexivity|]. split; auto. intros q [].
  - cbn [rep depth rt ids] in *. destruct R as (H1 & H2 & H3 & H4).
    destruct fuel as [|fuel]; [lia|]. cbn [treeFree].
    replace (id =? 0) with false by lia. unfold load at 1. rewrite H2. cbn [obind left right].
    assert (Nl : NoDup (ids tl)) by (eapply NoDup_app_l; eauto).
    assert (Nr : NoDup (ids tr) /\ ~ In id (ids tr)).
    { apply NoDup_app_r in ND. apply NoDup_cons_iff in ND. tauto. }
    assert (Dl : forall q, In q (ids tl) -> q <> id /\ ~ In q (ids tr)).
    { intros q Hq. split; [intros ->|intros K]; eapply NoDup_app_disj; eauto; cbn; auto. }
    destruct (IHl fuel h) as (h1 & A1 & A2 & A3); auto; [lia|]. rewrite A1. cbn [obind].
    assert (Hid : ~ In id (ids tl)). { intros K. apply Dl in K. tauto. }
    unfold load. rewrite A3, H2 by auto. cbn [obind right].
    destruct (IHr fuel h1) as (h2 & B1 & B2 & B3); auto; try tauto; [|lia|].
    { eapply rep_ext; [|exact H4]. intros x Hx. apply A3. intros K. apply Dl in K. tauto. }
    rewrite B1. cbn [obind]. unfold hfree. rewrite B3, A3, H2 by tauto.
    eexists. split; [reflexivity|]. split.
    + intros q Hq. destruct (Z.eq_dec q id) as [->|Hn]; [apply hset_eq|]. rewrite hset_neq by auto.
      apply in_app_or in Hq. destruct Hq as [Hq|[Hq|Hq]]; [|congruence|auto].
      rewrite B3; [auto|]. apply Dl in Hq. tauto.
    + intros q Hq. assert (q <> id) by (intros ->; apply Hq; apply in_or_app; cbn; auto).
      rewrite hset_neq by auto. rewrite B3, A3; auto.
      * intros K; apply Hq; apply in_or_app; auto.
      * intros K; apply Hq; apply in_or_app; cbn; auto.
Qed.

(** ** Merging *)
Fixpoint mergeP (n : Z) (r : range) (rest : nds) : nds :=
  match rest with
  | [] => [(n, r)]
  | (m, r') :: rest' =>
      if (snd r =? UINT_MAX) || (fst r' <=? snd r + 1)
      then mergeP n (fst r, Z.max (snd r) (snd r')) rest'
      else (n, r) :: mergeP m r' rest'
  end.

Lemma mergeP_ids n r rest x : In x (map fst (mergeP n r rest)) -> In x (n :: map fst rest).
Proof.
  revert n r; induction rest as [|[m r'] rest IH]; intros n r; cbn [mergeP map fst]; auto.
  destruct (_ || _).
  - intros H. apply IH in H. cbn in *. tauto.
  - cbn [map fst]. intros [H|H]; [left; auto|]. apply IH in H. cbn in *. tauto.
Qed.

Lemma mergeP_nodup n r rest : NoDup (n :: map fst rest) -> NoDup (map fst (mergeP n r rest)).
Proof.
  revert n r; induction rest as [|[m r'] rest IH]; intros n r H; cbn [mergeP map fst]; auto.
  cbn [map fst] in H. apply NoDup_cons_iff in H. destruct H as [H1 H2]. cbn [In] in H1.
  apply NoDup_cons_iff in H2 as H3. destruct H3 as [H3 H4].
  destruct (_ || _).
  - apply IH. constructor; auto.
  - cbn [map fst]. constructor; auto. intros K. apply mergeP_ids in K. cbn in K. tauto.
Qed.

Lemma nodes_in_ext h h' l : (forall x, In x (map fst l) -> h' x = h x) -> nodes_in h l -> nodes_in h' l.
Proof.
  intros E H. unfold nodes_in in *. rewrite Forall_forall in *. intros x Hx.
  destruct (H x Hx) as (A & a & b & B). split; auto. exists a, b. rewrite E; auto. apply in_map; auto.
Qed.

Lemma merge_heap rest : forall h n r,
  nodes_in h ((n, r) :: rest) -> NoDup (n :: map fst rest) ->
  Forall (fun x : Z * range => is_u32 (snd (snd x))) ((n, r) :: rest) ->
  exists h', merge h n (map fst rest) = Ok (h', map fst (mergeP n r rest)) /\
    nodes_in h' (mergeP n r rest) /\
    (forall q, ~ In q (n :: map fst rest) -> h' q = h q) /\
    (forall q, In q (n :: map fst rest) -> ~ In q (map fst (mergeP n r rest)) -> h' q = None).
Proof.
  induction rest as [|[m r'] rest IH]; intros h n r HN HD HU.
  - exists h. cbn [map merge mergeP fst]. repeat split; auto. intros q H K. tauto.
  - assert (HN' := HN). unfold nodes_in in HN'. apply Forall_cons_iff in HN'. destruct HN' as (Hn & HN').
    apply Forall_cons_iff in HN'. destruct HN' as (Hm & HR). cbn [fst snd] in Hn, Hm.
    destruct Hn as (N0 & nl & nr & Hn). destruct Hm as (M0 & ml & mr & Hm).
    cbn [map fst] in HD. apply NoDup_cons_iff in HD as HD1. destruct HD1 as (D1 & D2).
    apply NoDup_cons_iff in D2 as D2'. destruct D2' as (D3 & D4). cbn [In] in D1.
    apply Forall_cons_iff in HU as HU1. destruct HU1 as (U1 & U2). cbn [snd] in U1.
    apply Forall_cons_iff in U2 as U3. destruct U3 as (U3 & U4). cbn [snd] in U3.
    cbn [map fst merge]. unfold load at 1. rewrite Hn. cbn [obind]. unfold load at 1. rewrite Hm.
    cbn [obind first last].
    assert (C : ((snd r =? UINT_MAX) || (fst r' <=? u32 (snd r + 1))) =
                ((snd r =? UINT_MAX) || (fst r' <=? snd r + 1))).
    { unfold is_u32, UINT_MAX in *. destruct (snd r =? 4294967295) eqn:E; auto. cbn [orb]. f_equal.
      unfold u32, two32. apply Z.mod_small. lia. }
    rewrite C. clear C. cbn [mergeP].
    destruct ((snd r =? UINT_MAX) || (fst r' <=? snd r + 1)) eqn:E.
    + set (e := Z.max (snd r) (snd r')).
      assert (S1 : exists h1, (if snd r <? snd r' then store h n (with_last (mkN (fst r) (snd r) nl nr) (snd r')) else Ok h) = Ok h1
          /\ h1 n = Some (mkN (fst r) e nl nr) /\ forall q, q <> n -> h1 q = h q).
      { destruct (snd r <? snd r') eqn:E2.
        - unfold store. rewrite Hn. eexists. split; [reflexivity|]. unfold with_last. cbn [first last left right].
          split; [rewrite hset_eq; unfold e; rewrite Z.max_r by lia; auto|]. intros; apply hset_neq; auto.
        - exists h. split; auto. split; auto. unfold e. rewrite Z.max_l by lia. auto. }
      destruct S1 as (h1 & S1 & S2 & S3). rewrite S1. cbn [obind].
      assert (m <> n) by tauto.
      unfold hfree. rewrite S3, Hm by auto. cbn [obind].
      destruct (IH (hset h1 m None) n (fst r, e)) as (h' & I1 & I2 & I3 & I4).
      * constructor; cbn [fst snd].
        { split; auto. exists nl, nr. rewrite hset_neq by auto. auto. }
        { eapply nodes_in_ext; [|exact HR]. intros x Hx.
          rewrite hset_neq by (intros ->; tauto). apply S3. intros ->; tauto. }
      * constructor; tauto.
      * constructor; auto. cbn [snd]. unfold e, is_u32 in *. lia.
      * exists h'. split; [exact I1|]. split; [exact I2|]. split.
        { intros q Hq. cbn [In] in Hq. rewrite I3 by (cbn [In]; tauto).
          rewrite hset_neq by (intros ->; tauto). apply S3. intros ->; tauto. }
        { intros q Hq Hk. destruct (Z.eq_dec q m) as [->|Hne].
          - rewrite I3; [apply hset_eq|]. cbn [In]. intros [K|K]; [congruence|tauto].
          - apply I4; auto. cbn [In] in *. destruct Hq as [Hq|[Hq|Hq]]; auto. congruence. }
    + destruct (IH h m r') as (h' & I1 & I2 & I3 & I4); auto.
      { constructor; auto. cbn [fst snd]. split; auto. exists ml, mr. auto. }
      rewrite I1. cbn [obind map fst]. exists h'. split; auto. split; [|split].
      * constructor; auto. cbn [fst snd]. split; auto. exists nl, nr. rewrite I3; auto.
      * intros q Hq. apply I3. cbn [In] in *. tauto.
      * intros q Hq Hk. cbn [map fst In] in *. apply I4; [|tauto]. tauto.
Qed.

(** The ranges after merging. *)
Lemma mergeP_ranges rest : forall n r,
  fst r <= snd r -> Forall (fun x => fst (snd x) <= snd (snd x) /\ is_u32 (snd (snd x))) rest ->
  is_u32 (snd r) ->
  StronglySorted (fun a b : Z * range => fst (snd a) <= fst (snd b)) ((n, r) :: rest) ->
  canonical (map snd (mergeP n r rest)) /\
  (forall v, covered (map snd (mergeP n r rest)) v <-> covered (r :: map snd rest) v) /\
  (exists e' l', map snd (mergeP n r rest) = (fst r, e') :: l') /\
  Forall (fun x => is_u32 (snd x)) (map snd (mergeP n r rest)).
Proof.
  induction rest as [|[m r'] rest IH]; intros n [f e] Hr HF HU HS.
  - cbn [mergeP map snd]. cbn [fst snd] in *. split; [cbn; auto|]. split; [tauto|].
    split; [exists e, []; auto|]. constructor; auto.
  - cbn [mergeP fst snd] in *. apply Forall_cons_iff in HF. destruct HF as ((F1 & F2) & HF). cbn [fst snd] in *.
    apply StronglySorted_inv in HS. destruct HS as (HS & HA).
    apply Forall_cons_iff in HA. destruct HA as (A1 & HA). cbn [fst snd] in A1.
    apply StronglySorted_inv in HS as HS'. destruct HS' as (HS1 & HB).
    destruct r' as [f' e']. cbn [fst snd] in *.
    destruct ((e =? UINT_MAX) || (f' <=? e + 1)) eqn:E.
    + destruct (IH n (f, Z.max e e')) as (C1 & C2 & C3 & C4); cbn [fst snd]; auto.
      * lia.
      * unfold is_u32 in *. lia.
      * constructor; auto.
      * cbn [map snd]. split; auto. split; [|split; auto].
        intros v. rewrite C2. unfold covered. cbn [In]. split.
        { intros (a & b & [K|K] & Hv).
          - inversion K; subst. destruct (Z.le_gt_cases v e) as [G|G].
            + exists a, e. split; auto. lia.
            + exists f', e'. split; auto. unfold is_u32 in *. lia.
          - exists a, b. auto. }
        { intros (a & b & [K|[K|K]] & Hv).
          - inversion K; subst. exists a, (Z.max b e'). split; auto. lia.
          - inversion K; subst. exists f, (Z.max e b). split; auto. lia.
          - exists a, b. auto. }
    + destruct (IH m (f', e')) as (C1 & C2 & C3 & C4); cbn [fst snd]; auto.
      cbn [map snd]. split; [|split; [|split]].
      * cbn [canonical]. split; auto. split; auto. destruct C3 as (e2 & l2 & ->). cbn [fst]. lia.
      * intros v. unfold covered in *. cbn [In]. split.
        { intros (a & b & [K|K] & Hv); [exists a, b; auto|].
          destruct (proj1 (C2 v)) as (a' & b' & K' & Hv'); [exists a, b; auto|].
          exists a', b'. cbn [In map snd] in K'. tauto. }
        { intros (a & b & [K|K] & Hv); [exists a, b; auto|].
          destruct (proj2 (C2 v)) as (a' & b' & K' & Hv'); [exists a, b; auto|].
          exists a', b'. tauto. }
      * exists e. eexists. reflexivity.
      * constructor; auto.
Qed.

Lemma canonical_sorted (l : nds) : canonical (map snd l) ->
  StronglySorted (fun a b : Z * range => fst (snd a) < fst (snd b)) l.
Proof.
  induction l as [|[n [f e]] l IH]; intros H; constructor.
  - apply IH. cbn [map snd] in H. eapply canonical_tail; eauto.
  - cbn [map snd] in H. destruct (canonical_head_lt _ _ _ H) as (A & B).
    rewrite Forall_forall. intros [m [f' e']] Hx. cbn [fst snd].
    assert (In (f', e') (map snd l)) by (apply in_map_iff; exists (m, (f', e')); auto).
    apply B in H0. lia.
Qed.

(** ** The state of a set *)
Definition inv (t : rset) (tr ta : tree) (acc : list range) : Prop :=
  rep (hp t) tr /\ rep (hp t) ta /\ root t = rt tr /\ added t = rt ta /\
  NoDup (ids tr ++ ids ta) /\ (forall q, In q (ids tr ++ ids ta) -> 1 <= q < next t) /\
  1 <= next t /\ (forall q, hp t q <> None -> In q (ids tr ++ ids ta)) /\
  Forall (fun r => fst r <= snd r /\ range_u32 r) acc /\
  (forall r, In r (ranges ta) <-> In r acc).

Lemma inv_create t lo hi : created t lo hi -> inv t Lf Lf [] /\ count t = 0 /\
  (forall r, range_u32 r -> (rangeSetAdd t (fst r) (snd r) <> None <-> acceptable lo hi r)) /\
  is_u32 lo /\ is_u32 hi.
Proof.
  intros [(-> & -> & ->)|(E & L & H)].
  - split; [|split; auto; split; [|unfold is_u32, UINT_MAX; lia]].
    + unfold inv, rangeSetCreate. cbn. repeat split; auto; try tauto; try lia; try constructor; unfold empty_heap; congruence.
    + intros [f e] [F E]. unfold rangeSetAdd, acceptable, is_u32 in *. cbn [lowest highest rangeSetCreate fst snd] in *.
      destruct (e <? f) eqn:E1; [split; [congruence|lia]|].
      cbn [Z.ltb Z.compare andb]. replace (UINT_MAX <? UINT_MAX) with false by reflexivity. cbn [andb].
      split; [intros _; lia|congruence].
  - unfold rangeSetCreateLimited in E. destruct (hi <=? lo) eqn:E0; [discriminate|]. inversion E; subst t; clear E.
    split; [|split; auto; split; [|auto]].
    + unfold inv. cbn. repeat split; auto; try tauto; try lia; try constructor; unfold empty_heap; congruence.
    + intros [f e] [F E]. unfold rangeSetAdd, acceptable, is_u32 in *. cbn [lowest highest fst snd] in *.
      destruct (e <? f) eqn:E1; [split; [congruence|lia]|].
      destruct ((0 <? lo) && (f <? lo)) eqn:E2; [split; [congruence|lia]|].
      destruct ((hi <? UINT_MAX) && (hi <? e)) eqn:E3; [split; [congruence|lia]|].
      split; [intros _; lia|congruence].
Qed.

Lemma inv_add t tr ta acc f e t' :
  inv t tr ta acc -> range_u32 (f, e) -> rangeSetAdd t f e = Some t' ->
  inv t' tr (Nd (next t) (f, e) ta Lf) (acc ++ [(f, e)]) /\ count t' = u32 (count t + 1) /\
  lowest t' = lowest t /\ highest t' = highest t.
Proof.
  intros (I1 & I2 & I3 & I4 & I5 & I6 & I7 & I8 & I9 & I10) HU H. unfold rangeSetAdd in H.
  destruct (e <? f) eqn:E1; [discriminate|].
  destruct (_ && _); [discriminate|]. destruct (_ && _); [discriminate|]. inversion H; subst t'; clear H.
  split; [|auto]. unfold inv. cbn [hp next root added ids ranges rep rt].
  assert (NI : ~ In (next t) (ids tr ++ ids ta)) by (intros K; apply I6 in K; lia).
  assert (X : forall tt, rep (hp t) tt -> (forall x, In x (ids tt) -> In x (ids tr ++ ids ta)) ->
     rep (hset (hp t) (next t) (Some (mkN f e (added t) 0))) tt).
  { intros tt R S. eapply rep_ext; [|exact R]. intros x Hx. apply hset_neq. intros ->. auto. }
  split; [apply X; auto; intros; apply in_or_app; auto|].
  split. { split; [lia|]. split; [rewrite hset_eq, I4; reflexivity|]. split; auto.
    apply X; auto; intros; apply in_or_app; auto. }
  split; auto. split; auto.
  assert (P : Permutation (ids tr ++ ids ta ++ [next t]) (next t :: ids tr ++ ids ta)).
  { rewrite app_assoc. rewrite Permutation_app_comm. reflexivity. }
  split. { eapply Permutation_NoDup; [apply Permutation_sym; exact P|]. constructor; auto. }
  split. { intros q Hq. eapply Permutation_in in Hq; [|exact P]. destruct Hq as [<-|Hq]; [lia|]. apply I6 in Hq. lia. }
  split; [lia|].
  split. { intros q Hq. eapply Permutation_in; [apply Permutation_sym; exact P|]. destruct (Z.eq_dec q (next t)) as [->|Hn]; [left; auto|].
    rewrite hset_neq in Hq by auto. right. apply I8. auto. }
  split. { rewrite Forall_app. split; auto. constructor; auto. cbn [fst snd]. split; [lia|auto]. }
  intros r. rewrite !in_app_iff. cbn [In]. rewrite I10. tauto.
Qed.

Definition accepts (lo hi : Z) (r : range) : bool :=
  (fst r <=? snd r) && (lo <=? fst r) && (snd r <=? hi).

Lemma add_decides t lo hi r : lowest t = lo -> highest t = hi -> is_u32 lo -> is_u32 hi -> range_u32 r ->
  if accepts lo hi r then rangeSetAdd t (fst r) (snd r) <> None else rangeSetAdd t (fst r) (snd r) = None.
Proof.
  intros <- <- HL HH [F E]. destruct r as [f e]. unfold accepts, rangeSetAdd, is_u32 in *. cbn [fst snd] in *.
  destruct (e <? f) eqn:E1. { replace (f <=? e) with false by lia. reflexivity. }
  destruct ((0 <? lowest t) && (f <? lowest t)) eqn:E2.
  { replace (lowest t <=? f) with false by lia. rewrite andb_false_r. reflexivity. }
  destruct ((highest t <? UINT_MAX) && (highest t <? e)) eqn:E3.
  { replace (e <=? highest t) with false by lia. rewrite andb_false_r. auto. }
  replace ((f <=? e) && (lowest t <=? f) && (e <=? highest t)) with true by lia. congruence.
Qed.

Fixpoint spine_len (t : tree) : nat := match t with Lf => O | Nd _ _ tl _ => S (spine_len tl) end.
Fixpoint is_spine (t : tree) : Prop := match t with Lf => True | Nd _ _ tl tr => tr = Lf /\ is_spine tl end.
Lemma spine_facts t : is_spine t -> depth t = spine_len t /\ length (ids t) = spine_len t.
Proof.
  induction t as [|id r tl IHl tr IHr]; cbn; auto. intros (-> & H). apply IHl in H. destruct H as (A & B).
  cbn. rewrite A, app_length, B. cbn. lia.
Qed.

Lemma add_all_inv l : forall t lo hi tr ta acc,
  inv t tr ta acc -> is_spine ta -> lowest t = lo -> highest t = hi -> is_u32 lo -> is_u32 hi ->
  Forall range_u32 l -> 0 <= count t -> count t + zlen l <= UINT_MAX ->
  exists ta', inv (add_all t l) tr ta' (acc ++ filter (accepts lo hi) l) /\ is_spine ta' /\
    count (add_all t l) = count t + zlen (filter (accepts lo hi) l) /\
    spine_len ta' = (spine_len ta + length (filter (accepts lo hi) l))%nat /\
    lowest (add_all t l) = lo /\ highest (add_all t l) = hi.
Proof.
  induction l as [|[f e] l IH]; intros t lo hi tr ta acc HI HS HL HH HLu HHu HF HC HC2.
  - exists ta. cbn [filter add_all]. rewrite app_nil_r. unfold zlen. cbn [length].
    split; auto. split; auto. split; [lia|]. split; [lia|]. auto.
  - apply Forall_cons_iff in HF. destruct HF as (HF1 & HF).
    pose proof (add_decides t lo hi (f, e) HL HH HLu HHu HF1) as D. cbn [fst snd] in D.
    cbn [add_all filter]. unfold zlen in *. cbn [length] in *.
    destruct (accepts lo hi (f, e)).
    + destruct (rangeSetAdd t f e) as [t'|] eqn:E; [|congruence].
      destruct (inv_add _ _ _ _ _ _ _ HI HF1 E) as (I1 & I2 & I3 & I4).
      assert (CT : count t' = count t + 1).
      { rewrite I2. unfold u32. apply Z.mod_small. unfold two32, UINT_MAX in *. lia. }
      destruct (IH t' lo hi tr (Nd (next t) (f, e) ta Lf) (acc ++ [(f, e)])) as (ta' & J1 & J2 & J3 & J4 & J5 & J6);
        auto; try congruence; try lia; [cbn; auto|].
      exists ta'. rewrite <- app_assoc in J1. cbn [app] in J1. split; auto. split; auto. cbn [length].
      split; [lia|]. split; [cbn [spine_len] in J4; lia|]. auto.
    + rewrite D. apply IH; auto. lia.
Qed.

(** ** Update *)
Definition nd (h : heap) (p : Z) : Z * range :=
  (p, match h p with Some x => (first x, last x) | None => (0, 0) end).

Lemma nd_fst h l : map fst (map (nd h) l) = l.
Proof. rewrite map_map. cbn. apply map_id. Qed.

Lemma rep_ids h t : rep h t -> forall q, In q (ids t) ->
  q <> 0 /\ exists r a b, In r (ranges t) /\ h q = Some (mkN (fst r) (snd r) a b).
Proof.
  induction t as [|id r tl IHl tr IHr]; cbn [rep ids ranges]; [intros _ q []|].
  intros (H1 & H2 & H3 & H4) q Hq. apply in_app_or in Hq. destruct Hq as [Hq|[<-|Hq]].
  - destruct (IHl H3 q Hq) as (A & r' & a & b & B & C). split; auto. exists r', a, b. split; auto.
    apply in_or_app; auto.
  - split; auto. exists r, (rt tl), (rt tr). split; auto. apply in_or_app; cbn; auto.
  - destruct (IHr H4 q Hq) as (A & r' & a & b & B & C). split; auto. exists r', a, b. split; auto.
    apply in_or_app; cbn; auto.
Qed.

Lemma rep_ranges h t : rep h t -> forall r, In r (ranges t) ->
  exists q a b, In q (ids t) /\ h q = Some (mkN (fst r) (snd r) a b).
Proof.
  induction t as [|id r tl IHl tr IHr]; cbn [rep ids ranges]; [intros _ q []|].
  intros (H1 & H2 & H3 & H4) q Hq. apply in_app_or in Hq. destruct Hq as [Hq|[<-|Hq]].
  - destruct (IHl H3 q Hq) as (i & a & b & B & C). exists i, a, b. split; auto. apply in_or_app; auto.
  - exists id, (rt tl), (rt tr). split; auto. apply in_or_app; cbn; auto.
  - destruct (IHr H4 q Hq) as (i & a & b & B & C). exists i, a, b. split; auto. apply in_or_app; cbn; auto.
Qed.

Lemma sorted_map {A B} (R : A -> A -> Prop) (S : B -> B -> Prop) (g : A -> B) l :
  StronglySorted R l -> (forall a b, In a l -> In b l -> R a b -> S (g a) (g b)) ->
  StronglySorted S (map g l).
Proof.
  induction l as [|x l IH]; intros H G; cbn; constructor; apply StronglySorted_inv in H; destruct H as [H1 H2].
  - apply IH; auto. intros; apply G; cbn; auto.
  - rewrite Forall_forall in *. intros y Hy. apply in_map_iff in Hy. destruct Hy as (z & <- & Hz).
    apply G; cbn; auto.
Qed.

Lemma update_ok sort fuel t ta acc :
  qsort_ok sort -> inv t Lf ta acc -> is_spine ta -> (spine_len ta <= fuel)%nat ->
  count t = Z.of_nat (spine_len ta) ->
  exists t' tr, rangeSetUpdate sort fuel t = Ok t' /\
    inv t' tr Lf [] /\ canonical (ranges tr) /\ (forall v, covered (ranges tr) v <-> covered acc v) /\
    Forall (fun r => is_u32 (snd r)) (ranges tr) /\
    count t' = zlen (ranges tr) /\ (length (ids tr) <= spine_len ta)%nat /\
    (depth tr <= match length (ranges tr) with O => 0 | S _ => Nat.log2 (length (ranges tr)) + 1 end)%nat /\
    lowest t' = lowest t /\ highest t' = highest t /\ next t' = next t.
Proof.
  intros HQ (I1 & I2 & I3 & I4 & I5 & I6 & I7 & I8 & I9 & I10) HS HF HC.
  destruct (spine_facts _ HS) as (SD & SL).
  cbn [ids app rt] in *. unfold rangeSetUpdate.
  destruct (count t =? 0) eqn:E0.
  { assert (ta = Lf) by (destruct ta; auto; cbn in HC; lia). subst ta.
    exists t, Lf. split; auto. split.
    { unfold inv. cbn [ids app rep rt ranges]. split; auto. split; auto. split; auto. split; auto.
      split; auto. split; auto. split; auto. split; auto. split; [constructor|]. tauto. }
    split; [cbn; auto|]. split.
    { intros v. unfold covered. cbn [ranges]. split; intros (f & e & Hin & _); [destruct Hin|].
      apply I10 in Hin. destruct Hin. }
    split; [constructor|]. cbn. unfold zlen. cbn. repeat split; auto; lia. }
  rewrite I3. rewrite (storeNodes_rep (hp t) Lf) by (auto; cbn; lia). cbn [obind post].
  rewrite I4. rewrite storeNodes_rep by (auto; lia). cbn [obind app].
  replace (zlen (post ta) =? count t) with true.
  2:{ unfold zlen. rewrite (Permutation_length (post_ids ta)). lia. }
  cbn [negb].
  destruct (HQ (key_of (hp t)) (post ta)) as (Q1 & Q2).
  set (sl := sort (key_of (hp t)) (post ta)) in *.
  assert (P : Permutation (ids ta) sl) by (rewrite <- Q1; apply Permutation_sym, post_ids).
  assert (Hin : forall q, In q sl <-> In q (ids ta)).
  { intros q. split; apply Permutation_in; auto. apply Permutation_sym; auto. }
  assert (ND : NoDup sl) by (eapply Permutation_NoDup; eauto).
  assert (LS : length sl = spine_len ta) by (rewrite <- SL; symmetry; apply Permutation_length; auto).
  destruct sl as [|n rest] eqn:Esl; [cbn in LS; lia|].
  set (h := hp t) in *.
  assert (NI : nodes_in h (map (nd h) (n :: rest))).
  { unfold nodes_in. rewrite Forall_forall. intros x Hx. apply in_map_iff in Hx.
    destruct Hx as (q & <- & Hq). apply Hin in Hq. destruct (rep_ids _ _ I2 q Hq) as (A & r & a & b & B & C).
    unfold nd. rewrite C. cbn [fst snd first last]. split; auto. exists a, b. auto. }
  assert (RF : forall q, In q (n :: rest) -> In (snd (nd h q)) acc).
  { intros q Hq. apply Hin in Hq. destruct (rep_ids _ _ I2 q Hq) as (A & r & a & b & B & C).
    unfold nd. rewrite C. cbn [fst snd first last]. apply I10. destruct r; auto. }
  rewrite Forall_forall in I9.
  assert (RG : forall q, In q (n :: rest) -> fst (snd (nd h q)) <= snd (snd (nd h q)) /\ is_u32 (snd (snd (nd h q)))).
  { intros q Hq. apply RF, I9 in Hq. unfold range_u32 in Hq. tauto. }
  assert (NI' : nodes_in h ((n, snd (nd h n)) :: map (nd h) rest)) by exact NI.
  destruct (merge_heap (map (nd h) rest) h n (snd (nd h n))) as (h1 & M1 & M2 & M3 & M4); auto.
  { rewrite nd_fst. auto. }
  { constructor; [apply RG; cbn; auto|]. rewrite Forall_forall. intros x Hx. apply in_map_iff in Hx.
    destruct Hx as (q & <- & Hq). apply RG. cbn; auto. }
  rewrite nd_fst in M1, M3, M4. rewrite M1. cbn [obind].
  set (ml := mergeP n (snd (nd h n)) (map (nd h) rest)) in *.
  destruct (mergeP_ranges (map (nd h) rest) n (snd (nd h n))) as (C1 & C2 & C3 & C4).
  { apply RG; cbn; auto. }
  { rewrite Forall_forall. intros x Hx. apply in_map_iff in Hx. destruct Hx as (q & <- & Hq).
    apply RG. cbn; auto. }
  { apply RG; cbn; auto. }
  { change (n, snd (nd h n)) with (nd h n). rewrite <- map_cons.
    eapply sorted_map; [exact Q2|]. intros a b Ha Hb K. cbn beta.
    unfold key_of in K. unfold nd. fold h in K.
    apply Hin in Ha, Hb. destruct (rep_ids _ _ I2 a Ha) as (_ & ra & a1 & a2 & _ & Ea).
    destruct (rep_ids _ _ I2 b Hb) as (_ & rb & b1 & b2 & _ & Eb).
    rewrite Ea, Eb in *. exact K. }
  fold ml in C1, C2, C3, C4.
  assert (MS : forall x, In x (map fst ml) -> In x (n :: rest)).
  { intros x Hx. apply mergeP_ids in Hx. rewrite nd_fst in Hx. auto. }
  assert (MD : NoDup (map fst ml)) by (apply mergeP_nodup; rewrite nd_fst; auto).
  assert (ML : (length ml <= spine_len ta)%nat).
  { rewrite <- LS, <- (map_length fst ml). apply NoDup_incl_length; auto. }
  destruct (insertSorted_build fuel ml h1 0 None) as (h2 & B1 & B2 & _ & B4); auto; [lia| |constructor|].
  { apply canonical_sorted; auto. }
  change (rt Lf) with 0. rewrite B1. cbn [obind].
  assert (BI : ids (build fuel ml) = map fst ml) by (apply build_ids; lia).
  assert (BR : ranges (build fuel ml) = map snd ml) by (apply build_ranges; lia).
  eexists. exists (build fuel ml). split; [reflexivity|].
  split.
  { unfold inv. cbn [hp root added next rt ids ranges]. split; auto. split; [cbn; auto|].
    split; auto. split; auto. rewrite app_nil_r, BI. split; auto.
    split; [intros q Hq; apply I6, Hin, MS; auto|]. split; auto. split; [|split; [constructor|tauto]].
    intros q Hq. destruct (in_dec Z.eq_dec q (map fst ml)) as [|K]; auto. exfalso. apply Hq.
    rewrite B4 by auto. destruct (in_dec Z.eq_dec q (n :: rest)) as [Hq2|Hq2].
    - apply M4; auto.
    - rewrite M3 by auto. destruct (h q) eqn:Eh; auto. exfalso. apply Hq2, Hin, I8. congruence. }
  rewrite BR, BI. split; auto. split.
  { intros v. rewrite C2. unfold covered. change (snd (nd h n) :: map snd (map (nd h) rest)) with
      (map snd (map (nd h) (n :: rest))). split; intros (f & e & K & Hv); exists f, e; split; auto.
    - rewrite map_map in K. apply in_map_iff in K. destruct K as (q & E & Hq). rewrite <- E. auto.
    - apply I10 in K. destruct (rep_ranges _ _ I2 _ K) as (q & a & b & Hq & E).
      rewrite map_map. apply in_map_iff. exists q. split; [|apply Hin; auto]. unfold nd. rewrite E. reflexivity. }
  split; auto. cbn [count lowest highest next]. unfold zlen. rewrite !map_length.
  split; auto. split; [rewrite <- LS in *; lia|]. split; [|auto].
  pose proof (build_depth fuel ml ltac:(lia)) as BD. exact BD.
Qed.

(** ** C29, C30 *)
Lemma fresh_update sort fuel t0 lo hi l :
  qsort_ok sort -> created t0 lo hi -> Forall range_u32 l -> zlen l <= UINT_MAX ->
  (length l <= fuel)%nat ->
  exists t tr, rangeSetUpdate sort fuel (add_all t0 l) = Ok t /\
    inv t tr Lf [] /\ canonical (ranges tr) /\
    (forall v, covered (ranges tr) v <-> covered (filter (accepts lo hi) l) v) /\
    Forall (fun r => is_u32 (snd r)) (ranges tr) /\
    count t = zlen (ranges tr) /\ (depth tr <= fuel)%nat /\
    (depth tr <= match length (ranges tr) with O => 0 | S _ => Nat.log2 (length (ranges tr)) + 1 end)%nat /\
    lowest t = lo /\ highest t = hi /\ (length (ids tr) <= length l)%nat.
Proof.
  intros HQ HC HU HL HF. destruct (inv_create _ _ _ HC) as (I & C & _ & Ulo & Uhi).
  assert (LH : lowest t0 = lo /\ highest t0 = hi).
  { destruct HC as [(-> & -> & ->)|(E & _)]; [auto|]. unfold rangeSetCreateLimited in E.
    destruct (hi <=? lo); inversion E; auto. }
  destruct LH as (LH1 & LH2).
  destruct (add_all_inv l t0 lo hi Lf Lf [] I) as (ta & J1 & J2 & J3 & J4 & J5 & J6); auto; try (cbn; auto; lia).
  cbn [app spine_len] in *.
  assert (FL : (length (filter (accepts lo hi) l) <= length l)%nat).
  { clear. induction l; cbn; auto. destruct (accepts _ _ _); cbn; lia. }
  destruct (update_ok sort fuel (add_all t0 l) ta _ HQ J1 J2) as (t & tr & K1 & K2 & K3 & K4 & K5 & K6 & K7 & K8 & K9 & K10 & K11);
    [lia|unfold zlen in J3; lia|].
  exists t, tr. split; auto. split; auto. split; auto. split; auto. split; auto. split; auto.
  split.
  { assert (length (ranges tr) <= fuel)%nat.
    { assert (E : forall x, length (ranges x) = length (ids x)) by
        (induction x; cbn; auto; rewrite !app_length; cbn; lia). rewrite E. lia. }
    destruct (length (ranges tr)) as [|k] eqn:E; [lia|].
    pose proof (Nat.log2_lt_lin (S k)). lia. }
  split; auto. split; [congruence|]. split; [congruence|lia].
Qed.

Lemma accepts_iff lo hi r : accepts lo hi r = true <-> acceptable lo hi r.
Proof. unfold accepts, acceptable. lia. Qed.

Lemma union_exact sort fuel t0 lo hi l :
  qsort_ok sort -> created t0 lo hi -> Forall range_u32 l -> zlen l <= UINT_MAX ->
  (length l <= fuel)%nat ->
  exists t, rangeSetUpdate sort fuel (add_all t0 l) = Ok t /\
    forall v, exists b, rangeSetIn fuel t v = Ok b /\
      (b = true <-> exists f e, In (f, e) l /\ acceptable lo hi (f, e) /\ f <= v <= e).
Proof.
  intros HQ HC HU HL HF.
  destruct (fresh_update sort fuel t0 lo hi l HQ HC HU HL HF)
    as (t & tr & E & I & CN & CV & _ & CT & D & _).
  exists t. split; auto. intros v. destruct I as (I1 & _ & I3 & _).
  destruct (search_rep (hp t) tr v fuel I1 (canonical_ordered _ CN) D) as (b & Hb & Hc).
  exists b. unfold rangeSetIn. rewrite I3. split; auto. rewrite Hc, CV. unfold covered.
  split; intros (f & e & K & Hv); exists f, e.
  - apply filter_In in K. rewrite accepts_iff in K. tauto.
  - rewrite filter_In, accepts_iff. tauto.
Qed.

Lemma add_refused t lo hi l f e :
  created t lo hi -> Forall range_u32 l -> range_u32 (f, e) -> zlen l <= UINT_MAX ->
  (rangeSetAdd (add_all t l) f e = None <-> ~ acceptable lo hi (f, e)).
Proof.
  intros HC HU HR HL. destruct (inv_create _ _ _ HC) as (I & C & _ & Ulo & Uhi).
  assert (LH : lowest t = lo /\ highest t = hi).
  { destruct HC as [(-> & -> & ->)|(E & _)]; [auto|]. unfold rangeSetCreateLimited in E.
    destruct (hi <=? lo); inversion E; auto. }
  destruct LH as (LH1 & LH2).
  destruct (add_all_inv l t lo hi Lf Lf [] I) as (ta & J1 & J2 & J3 & J4 & J5 & J6); auto; try (cbn; auto; lia).
  pose proof (add_decides (add_all t l) lo hi (f, e) J5 J6 Ulo Uhi HR) as D. cbn [fst snd] in D.
  rewrite <- accepts_iff. destruct (accepts lo hi (f, e)); split; congruence.
Qed.

Lemma shape sort fuel t0 lo hi l :
  qsort_ok sort -> created t0 lo hi -> Forall range_u32 l -> zlen l <= UINT_MAX ->
  (length l <= fuel)%nat ->
  exists t rs, rangeSetUpdate sort fuel (add_all t0 l) = Ok t /\
    inorder fuel (hp t) (root t) = Ok rs /\ canonical rs /\ zlen rs = rangeSetSize t /\
    (forall v, covered rs v <-> exists f e, In (f, e) l /\ acceptable lo hi (f, e) /\ f <= v <= e) /\
    forall v, exists b, rangeSetIn (Nat.log2 (length rs) + 1) t v = Ok b.
Proof.
  intros HQ HC HU HL HF.
  destruct (fresh_update sort fuel t0 lo hi l HQ HC HU HL HF)
    as (t & tr & E & I & CN & CV & _ & CT & D & D2 & _).
  destruct I as (I1 & _ & I3 & _).
  exists t, (ranges tr). split; auto. split.
  { rewrite I3. apply inorder_rep; auto. }
  split; auto. split; auto. split.
  { intros v. rewrite CV. unfold covered. split; intros (f & e & K & Hv); exists f, e.
    - apply filter_In in K. rewrite accepts_iff in K. tauto.
    - rewrite filter_In, accepts_iff. tauto. }
  intros v. destruct (search_rep (hp t) tr v (Nat.log2 (length (ranges tr)) + 1) I1 (canonical_ordered _ CN))
    as (b & Hb & _); [destruct (length (ranges tr)); lia|].
  exists b. unfold rangeSetIn. rewrite I3. auto.
Qed.

(** A canonical list is determined by the set it covers. *)
Lemma canonical_unique l : forall l', canonical l -> canonical l' ->
  (forall v, covered l v <-> covered l' v) -> l = l'.
Proof.
  induction l as [|[f e] l IH]; intros l' C C' H.
  - destruct l' as [|[f e] l']; auto. exfalso. destruct (proj2 (H f)) as (a & b & [] & _).
    exists f, e. cbn in C'. split; [cbn; auto|lia].
  - destruct l' as [|[f' e'] l'].
    { exfalso. destruct (proj1 (H f)) as (a & b & [] & _). exists f, e. cbn in C. split; [cbn; auto|lia]. }
    destruct (canonical_head_lt _ _ _ C) as (A & B). destruct (canonical_head_lt _ _ _ C') as (A' & B').
    assert (LB : forall v, covered ((f, e) :: l) v -> f <= v).
    { intros v (a & b & [K|K] & Hv); [inversion K; lia|]. apply B in K. lia. }
    assert (LB' : forall v, covered ((f', e') :: l') v -> f' <= v).
    { intros v (a & b & [K|K] & Hv); [inversion K; lia|]. apply B' in K. lia. }
    assert (f = f').
    { assert (f' <= f). { apply LB', H. exists f, e. split; [cbn; auto|lia]. }
      assert (f <= f'). { apply LB, H. exists f', e'. split; [cbn; auto|lia]. } lia. }
    subst f'.
    assert (N : forall v, e < v -> v <= e + 1 -> ~ covered ((f, e) :: l) v).
    { intros v V1 V2 (a & b & [K|K] & Hv); [inversion K; lia|]. apply B in K. lia. }
    assert (N' : forall v, e' < v -> v <= e' + 1 -> ~ covered ((f, e') :: l') v).
    { intros v V1 V2 (a & b & [K|K] & Hv); [inversion K; lia|]. apply B' in K. lia. }
    assert (e = e').
    { destruct (Z.lt_trichotomy e e') as [G|[G|G]]; auto; exfalso.
      - apply (N (e + 1)); [lia|lia|]. apply H. exists f, e'. split; [cbn; auto|lia].
      - apply (N' (e' + 1)); [lia|lia|]. apply H. exists f, e. split; [cbn; auto|lia]. }
    subst e'. f_equal. apply IH.
    + eapply canonical_tail; eauto.
    + eapply canonical_tail; eauto.
    + intros v. split; intros (a & b & K & Hv).
      * apply B in K as G. destruct (proj1 (H v)) as (a' & b' & [K'|K'] & Hv').
        { exists a, b. cbn; auto. } { inversion K'; subst. lia. } { exists a', b'. auto. }
      * apply B' in K as G. destruct (proj2 (H v)) as (a' & b' & [K'|K'] & Hv').
        { exists a, b. cbn; auto. } { inversion K'; subst. lia. } { exists a', b'. auto. }
Qed.

(** ** No leak, no double free *)
Lemma destroy_inv t tr ta acc fuel :
  inv t tr ta acc -> (depth tr <= fuel)%nat -> (depth ta <= fuel)%nat ->
  exists h, rangeSetDestroy fuel t = Ok h /\ forall q, h q = None.
Proof.
  intros (I1 & I2 & I3 & I4 & I5 & I6 & I7 & I8 & _) D1 D2. unfold rangeSetDestroy.
  destruct (treeFree_rep tr fuel (hp t)) as (h1 & A1 & A2 & A3); auto; [eapply NoDup_app_l; eauto|].
  rewrite I3, A1. cbn [obind].
  destruct (treeFree_rep ta fuel h1) as (h2 & B1 & B2 & B3); auto; [|eapply NoDup_app_r; eauto|].
  { eapply rep_ext; [|exact I2]. intros x Hx. apply A3. intros K. eapply NoDup_app_disj; eauto. }
  rewrite I4, B1. exists h2. split; auto. intros q.
  destruct (in_dec Z.eq_dec q (ids ta)); [auto|]. rewrite B3 by auto.
  destruct (in_dec Z.eq_dec q (ids tr)); [auto|]. rewrite A3 by auto.
  destruct (hp t q) eqn:E; auto. exfalso.
  assert (K : In q (ids tr ++ ids ta)) by (apply I8; congruence). apply in_app_or in K. tauto.
Qed.

Lemma once_updated sort fuel t0 lo hi l l2 :
  qsort_ok sort -> created t0 lo hi -> Forall range_u32 l -> Forall range_u32 l2 ->
  zlen l + zlen l2 <= UINT_MAX -> (length l + length l2 <= fuel)%nat ->
  (exists h, rangeSetDestroy fuel (add_all t0 l) = Ok h /\ forall q, h q = None) /\
  exists t, rangeSetUpdate sort fuel (add_all t0 l) = Ok t /\
    (exists h, rangeSetDestroy fuel (add_all t l2) = Ok h /\ forall q, h q = None) /\
    forall v, exists b, rangeSetIn fuel (add_all t l2) v = Ok b /\
      (b = true <-> exists f e, In (f, e) l /\ acceptable lo hi (f, e) /\ f <= v <= e).
Proof.
  intros HQ HC HU HU2 HL HF.
  assert (L1 : 0 <= zlen l2) by (unfold zlen; lia). assert (L2 : 0 <= zlen l) by (unfold zlen; lia).
  destruct (inv_create _ _ _ HC) as (I & C & _ & Ulo & Uhi).
  assert (LH : lowest t0 = lo /\ highest t0 = hi).
  { destruct HC as [(-> & -> & ->)|(E & _)]; [auto|]. unfold rangeSetCreateLimited in E.
    destruct (hi <=? lo); inversion E; auto. }
  destruct LH as (LH1 & LH2).
  assert (FL : forall l, (length (filter (accepts lo hi) l) <= length l)%nat).
  { clear. induction l; cbn; auto. destruct (accepts _ _ _); cbn; lia. }
  split.
  { destruct (add_all_inv l t0 lo hi Lf Lf [] I) as (ta & J1 & J2 & J3 & J4 & J5 & J6); auto; try (cbn; auto; lia).
    eapply destroy_inv; [exact J1|cbn; lia|]. destruct (spine_facts _ J2) as (-> & _). cbn in J4.
    specialize (FL l). lia. }
  destruct (fresh_update sort fuel t0 lo hi l HQ HC HU ltac:(lia) ltac:(lia))
    as (t & tr & E & I' & CN & CV & CU & CT & D & D2 & T1 & T2 & T3).
  exists t. split; auto.
  assert (CB : 0 <= count t <= zlen l).
  { rewrite CT. unfold zlen. assert (E1 : forall x, length (ranges x) = length (ids x)) by
      (induction x; cbn; auto; rewrite !app_length; cbn; lia). rewrite E1. lia. }
  destruct (add_all_inv l2 t lo hi tr Lf [] I') as (ta & J1 & J2 & J3 & J4 & J5 & J6); auto; try (cbn; auto; lia).
  split.
  { eapply destroy_inv; [exact J1|auto|]. destruct (spine_facts _ J2) as (-> & _). cbn in J4.
    specialize (FL l2). lia. }
  intros v. destruct J1 as (J1 & _ & J7 & _).
  destruct (search_rep (hp (add_all t l2)) tr v fuel J1 (canonical_ordered _ CN) D) as (b & Hb & Hc).
  exists b. unfold rangeSetIn. rewrite J7. split; auto. rewrite Hc, CV. unfold covered.
  split; intros (f & e & K & Hv); exists f, e.
  - apply filter_In in K. rewrite accepts_iff in K. tauto.
  - rewrite filter_In, accepts_iff. tauto.
Qed.
