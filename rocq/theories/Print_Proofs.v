(** Proofs about the listing of flows (C65): the texts of ports and matches. *)
From Coq Require Import String Permutation Sorted.
From Verif Require Import Base Lists Cstr_Model Util_Spec Util_Proofs Rangeset_Model Rangeset_Spec
  Rangeset_Proofs Rangeset2_Proofs IpKey_Model IpKey_Spec IpKey_Proofs Match_Model Match_Spec Match_Proofs
  Flow_Model Flow_Spec Cidr_Proofs Flow_Proofs Print_Model Print_Spec.

(** ** Buffers *)
Lemma strbuf_in b : In 0 b -> exists s, strbuf b = Ok s.
Proof.
  induction b as [|c b IH]; intros H; [destruct H|]. cbn [strbuf]. destruct (c =? 0) eqn:E; [eauto|].
  destruct IH as (s & ->); [destruct H; [lia|auto]|]. cbn [obind]. eauto.
Qed.
Lemma strbuf_app s t : Forall (fun c => c <> 0) s -> strbuf (s ++ 0 :: t) = Ok s.
Proof. induction 1 as [|c s Hc Hs IH]; [reflexivity|]. cbn [app strbuf]. replace (c =? 0) with false by lia. rewrite IH. auto. Qed.
Lemma strbuf_cstring b s : strbuf b = Ok s -> cstring b = s.
Proof.
  revert s. induction b as [|c b IH]; intros s; cbn [strbuf cstring]; [discriminate|]. destruct (c =? 0); [congruence|].
  destruct (strbuf b) as [x| | |] eqn:E; cbn [obind]; try discriminate. intros H. assert (s = c :: x) as -> by congruence.
  f_equal. auto.
Qed.

Lemma snprintf_total buf pos len s : 0 <= pos -> 1 <= len -> pos + len <= zlen buf ->
  exists b, snprintf buf pos len s = Ok b /\ zlen b = zlen buf /\ In 0 b.
Proof.
  intros H1 H2 H3. unfold snprintf. set (w := firstn (Z.to_nat (Z.min (len - 1) (zlen s))) s).
  assert (LW : zlen w <= len - 1) by (unfold w, zlen; rewrite firstn_length; unfold zlen; lia).
  assert (LW2 : zlen (w ++ [0]) = zlen w + 1) by (rewrite zlen_app; reflexivity).
  rewrite wr_ok by lia. eexists. split; [reflexivity|]. split.
  - unfold zlen in *. rewrite !app_length, firstn_length, skipn_length. rewrite !app_length in *. cbn [length] in *. lia.
  - rewrite !in_app_iff. right. left. right. cbn. auto.
Qed.

(** ** Printing stays within the buffer *)
Lemma printTree_safe h t : forall fuel buf pos, rep h t -> (depth t <= fuel)%nat ->
  0 <= pos -> pos + zlen (text t) <= zlen buf + 1 -> zlen buf <= UINT_MAX ->
  exists b r, printTree fuel h (rt t) buf pos = Ok (b, r) /\ zlen b = zlen buf /\ (In 0 buf -> In 0 b) /\
    (forall p, r = Some p -> p = pos + zlen (text t)) /\ (pos + 3 <= zlen buf -> t <> Lf -> In 0 b).
Proof.
  induction t as [|id r tl IHl tr IHr]; intros fuel buf pos R D H1 H2 H3.
  - exists buf, (Some pos). split; [destruct fuel; reflexivity|]. split; auto. split; auto. split; [|congruence].
    intros p E. change (text Lf) with (@nil Z). change (zlen (@nil Z)) with 0. assert (p = pos) by congruence. lia.
  - cbn [rep depth rt] in *. destruct R as (R1 & R2 & R3 & R4). destruct fuel as [|fuel]; [lia|].
    rewrite text_nd in *. cbn [printTree]. replace (id =? 0) with false by lia.
    unfold load. rewrite R2. cbn [obind first last left right].
    set (s := range_text (fst r) (snd r)) in *.
    assert (LS : 2 <= zlen s) by apply range_text_len.
    assert (LT : forall x : chars, 0 <= zlen x) by (intros; unfold zlen; lia).
    assert (LA : zlen (text tl ++ s ++ text tr) = zlen (text tl) + zlen s + zlen (text tr)).
    { unfold zlen. rewrite !app_length. lia. }
    rewrite LA in *. pose proof (LT (text tl)). pose proof (LT (text tr)).
    destruct (IHl fuel buf pos) as (b1 & r1 & E1 & L1 & Z1 & P1 & N1); auto; try lia.
    rewrite E1. cbn [obind]. destruct r1 as [pos1|].
    2:{ exists b1, None. split; auto. split; auto. split; auto. split; [discriminate|]. intros HP _.
        destruct tl as [|i1 q1 a1 c1]; [|apply N1; [auto|discriminate]].
        change (rt Lf) with 0 in E1. destruct fuel; cbn in E1; discriminate. }
    pose proof (P1 pos1 eq_refl) as EP.
    replace (u32 (zlen buf - pos1)) with (zlen buf - pos1).
    2:{ symmetry. unfold u32. apply Z.mod_small. unfold two32, UINT_MAX in *. lia. }
    destruct (zlen buf - pos1 <? 3) eqn:E3.
    { exists b1, None. split; auto. split; auto. split; auto. split; [discriminate|]. intros HP _.
      destruct tl as [|i1 q1 a1 c1]; [|apply N1; [auto|discriminate]].
      change (text Lf) with (@nil Z) in EP. change (zlen (@nil Z)) with 0 in EP. lia. }
    destruct (snprintf_total b1 pos1 (zlen buf - pos1) s) as (b2 & E2 & L2 & Z2); try lia.
    rewrite E2. cbn [obind].
    destruct (IHr fuel b2 (pos1 + zlen s)) as (b3 & r3 & E4 & L4 & Z4 & P4 & N4); auto; try lia.
    exists b3, r3. split; auto. split; [lia|]. split; auto. split; [|auto]. intros p Ep. rewrite (P4 p Ep). lia.
Qed.

Lemma print_items_in m : Forall item_ok m -> forall buf pos b rc, print_items m buf pos = Ok (b, rc) ->
  0 <= pos < zlen buf -> In 0 buf -> In 0 b.
Proof.
  induction 1 as [|i m Hi Hm IH]; intros buf pos b rc; cbn [print_items]; [congruence|]. intros H P0 I0.
  assert (X : exists buf1 pos1, (if (zlen buf - pos <? zlen buf) && (2 <? zlen buf - pos) then do b0 <- aset buf pos 44; Ok (b0, pos + 1) else Ok (buf, pos))
              = Ok (buf1, pos1) /\ 0 <= pos1 < zlen buf1).
  { destruct (_ && _) eqn:E.
    - rewrite aset_in_range by lia. cbn [obind]. do 2 eexists. split; [reflexivity|]. unfold zlen in *. rewrite zupd_length. lia.
    - do 2 eexists. split; [reflexivity|]. lia. }
  destruct X as (buf1 & pos1 & X & P1). rewrite X in H. cbn [obind] in H.
  destruct (snprintf_total buf1 pos1 (zlen buf1 - pos1) (item_text i)) as (b2 & E2 & L2 & Z2); try lia.
  rewrite E2 in H. cbn [obind] in H. destruct (zlen buf1 - pos1 <=? zlen (item_text i)) eqn:E3; [congruence|].
  eapply IH; eauto. unfold zlen in *. lia.
Qed.
Lemma matchString_in m buf b rc : Forall item_ok m -> 0 < zlen buf -> matchString m buf = Ok (b, rc) -> In 0 b.
Proof.
  intros F L. unfold matchString. replace (zlen buf =? 0) with false by lia. rewrite aset_in_range by lia. cbn [obind].
  intros H. eapply print_items_in; eauto; unfold zlen in *; rewrite ?zupd_length; try lia.
  destruct buf; [cbn in L; lia|]. left. reflexivity.
Qed.

(** ** The text of a set is not longer than the text it was made of *)
Definition cost (r : range) : Z := zlen (range_text (fst r) (snd r)).
Definition total (l : list range) : Z := fold_right (fun r a => cost r + a) 0 l.

Lemma text_total t : zlen (text t) = total (ranges t).
Proof.
  unfold text. induction (ranges t) as [|r l IH]; [reflexivity|]. cbn [map concat total fold_right].
  rewrite zlen_app, IH. reflexivity.
Qed.
Lemma cost_pos r : 2 <= cost r.
Proof. apply range_text_len. Qed.
Lemma total_nonneg l : 0 <= total l.
Proof. induction l as [|r l IH]; cbn [total fold_right]; [lia|]. pose proof (cost_pos r). unfold total in IH. lia. Qed.
Lemma total_in r l : In r l -> cost r <= total l.
Proof.
  induction l as [|q l IH]; intros H; [destruct H|]. cbn [total fold_right]. fold (total l).
  pose proof (total_nonneg l). pose proof (cost_pos q). destruct H as [->|H]; [lia|]. apply IH in H. lia.
Qed.
Lemma total_two r q l : In r l -> In q l -> r <> q -> cost r + cost q <= total l.
Proof.
  induction l as [|x l IH]; intros H1 H2 N; [destruct H1|]. cbn [total fold_right]. fold (total l). pose proof (cost_pos x).
  destruct H1 as [->|H1], H2 as [->|H2]; try congruence.
  - apply total_in in H2. lia.
  - apply total_in in H1. lia.
  - specialize (IH H1 H2 N). lia.
Qed.
Lemma total_filter p l : total l = total (filter p l) + total (filter (fun r => negb (p r)) l).
Proof.
  induction l as [|x l IH]; [reflexivity|]. cbn [filter total fold_right]. fold (total l). destruct (p x); cbn [negb];
  cbn [total fold_right]; fold (total (filter p l)); fold (total (filter (fun r => negb (p r)) l)); lia.
Qed.

Lemma cost_eq f e : cost (f, e) = if f =? e then zlen (dec f) + 1 else zlen (dec f) + zlen (dec e) + 2.
Proof. unfold cost, range_text. cbn [fst snd]. destruct (f =? e); rewrite !zlen_app; unfold zlen; cbn [length]; lia. Qed.

Lemma union_cost C : forall R, canonical C -> Forall (fun r => fst r <= snd r) R ->
  (forall v, covered C v <-> covered R v) -> total C <= total R.
Proof.
  induction C as [|[f e] C IH]; intros R CN FR CV; [apply total_nonneg|].
  destruct (canonical_head_lt _ _ _ CN) as (FE & HB). pose proof (canonical_tail _ _ CN) as CN'.
  cbn [total fold_right]. fold (total C). rewrite Forall_forall in FR.
  set (p := fun r : range => (f <=? fst r) && (snd r <=? e)). rewrite (total_filter p R).
  (* every range of R lies in [f,e] or behind *)
  assert (CC : forall v, covered ((f, e) :: C) v <-> f <= v <= e \/ covered C v).
  { intros v. split.
    - intros (a & b & [K|K] & Hv); [injection K as <- <-; auto|right; exists a, b; auto].
    - intros [Hv|(a & b & K & Hv)]; [exists f, e; cbn; auto|exists a, b; cbn; auto]. }
  assert (CB : forall v, covered C v -> e + 1 < v).
  { intros v (a & b & K & Hv). apply HB in K. lia. }
  assert (RR : forall r, In r R -> p r = true \/ e + 1 < fst r).
  { intros [a b] Hr. pose proof (FR _ Hr) as AB. cbn [fst snd] in *.
    assert (V : forall v, a <= v <= b -> f <= v <= e \/ e + 1 < v).
    { intros v Hv. destruct (proj1 (CC v)) as [K|K]; [apply CV; exists a, b; auto|left; auto|right; auto]. }
    unfold p. cbn [fst snd]. destruct (V a) as [Ka|Ka]; [lia| |right; lia]. left.
    destruct (V b) as [Kb|Kb]; [lia|lia|]. exfalso. destruct (V (e + 1)); lia. }
  assert (X : exists b, In (f, b) R /\ p (f, b) = true).
  { destruct (proj1 (CV f)) as (a & b & K & Hv); [apply CC; left; lia|].
    destruct (RR _ K) as [P|P]; [|cbn in P; lia]. exists b. unfold p in P. cbn [fst snd] in P. assert (a = f) by lia. subst a.
    split; [auto|unfold p; cbn [fst snd]; lia]. }
  assert (Y : exists a, In (a, e) R /\ p (a, e) = true).
  { destruct (proj1 (CV e)) as (a & b & K & Hv); [apply CC; left; lia|].
    destruct (RR _ K) as [P|P]; [|cbn in P; lia]. exists a. unfold p in P. cbn [fst snd] in P. assert (b = e) by lia. subst b.
    split; [auto|unfold p; cbn [fst snd]; lia]. }
  assert (T1 : cost (f, e) <= total (filter p R)).
  { destruct X as (b & X1 & X2), Y as (a & Y1 & Y2).
    destruct (Z.eq_dec b e) as [->|N]; [apply total_in, filter_In; auto|].
    destruct (Z.eq_dec a f) as [->|N']; [apply total_in, filter_In; auto|].
    pose proof (total_two (f, b) (a, e) (filter p R)) as T. rewrite !filter_In in T.
    assert (T' : cost (f, b) + cost (a, e) <= total (filter p R)) by (apply T; auto; congruence).
    rewrite !cost_eq in *. pose proof (zlen_nonneg (dec f)). pose proof (zlen_nonneg (dec e)).
    pose proof (zlen_nonneg (dec a)). pose proof (zlen_nonneg (dec b)).
    destruct (f =? e), (f =? b) eqn:EE, (a =? e) eqn:EF;
      try (apply Z.eqb_eq in EE; subst b); try (apply Z.eqb_eq in EF; subst a); lia. }
  assert (T2 : total C <= total (filter (fun r => negb (p r)) R)).
  { apply IH; auto.
    - apply Forall_forall. intros r Hr. apply filter_In in Hr. apply FR. tauto.
    - intros v. split.
      + intros HC. pose proof (CB v HC). destruct (proj1 (CV v)) as (a & b & K & Hv); [apply CC; auto|].
        exists a, b. split; auto. apply filter_In. split; auto. unfold p. cbn [fst snd]. lia.
      + intros (a & b & K & Hv). apply filter_In in K. destruct K as (K & NP).
        destruct (RR _ K) as [P|P]; [rewrite P in NP; discriminate|]. cbn [fst] in P.
        destruct (proj1 (CC v)) as [Q|Q]; [apply CV; exists a, b; auto|lia|auto]. }
  lia.
Qed.

Lemma dec_aux_len fuel : forall v n acc, 0 <= v < 10 ^ Z.of_nat n -> (1 <= n)%nat ->
  (length (dec_aux fuel v acc) <= n + length acc)%nat.
Proof.
  induction fuel as [|fuel IH]; intros v n acc H N; cbn [dec_aux]; [lia|].
  destruct (v <? 10) eqn:E; [cbn [length]; lia|]. destruct n as [|[|n]]; [lia|change (10 ^ Z.of_nat 1) with 10 in H; lia|].
  specialize (IH (v / 10) (S n) ((48 + v mod 10) :: acc)).
  assert (K : 0 <= v / 10 < 10 ^ Z.of_nat (S n)).
  { rewrite (Nat2Z.inj_succ (S n)), Z.pow_succ_r in H by lia. split; [apply Z.div_pos; lia|]. apply Z.div_lt_upper_bound; lia. }
  specialize (IH K ltac:(lia)). cbn [length] in IH. lia.
Qed.
Lemma dec_len v n : 0 <= v < 10 ^ n -> 1 <= n -> zlen (dec v) <= n.
Proof.
  intros H N. unfold dec, zlen. pose proof (dec_aux_len 10 v (Z.to_nat n) []) as K. rewrite Z2Nat.id in K by lia.
  specialize (K H ltac:(lia)). cbn [length] in K. lia.
Qed.
Lemma digits_val s : forall acc n v k r, digits 10 acc n s = (v, k, r) -> 0 <= acc ->
  zlen s = zlen r + (k - n) /\ n <= k /\ 0 <= v < (acc + 1) * 10 ^ (k - n).
Proof.
  induction s as [|c s IH]; intros acc n v k r; cbn [digits].
  - intros H A. assert (v = acc /\ k = n /\ r = []) as (-> & -> & ->) by (repeat split; congruence).
    rewrite Z.sub_diag. cbn. lia.
  - assert (B : (acc, n, c :: s) = (v, k, r) -> 0 <= acc -> zlen (c :: s) = zlen r + (k - n) /\ n <= k /\ 0 <= v < (acc + 1) * 10 ^ (k - n)).
    { intros H A. assert (v = acc /\ k = n /\ r = c :: s) as (-> & -> & ->) by (repeat split; congruence). rewrite Z.sub_diag. cbn. lia. }
    destruct (digit c) as [d|] eqn:E; [|exact B]. destruct (d <? 10) eqn:E2; [|exact B]. intros H A. clear B.
    assert (D : 0 <= d).
    { unfold digit in E.
      destruct ((48 <=? c) && (c <=? 57)) eqn:?; [assert (d = c - 48) by congruence; lia|].
      destruct ((97 <=? c) && (c <=? 122)) eqn:?; [assert (d = c - 87) by congruence; lia|].
      destruct ((65 <=? c) && (c <=? 90)) eqn:?; [assert (d = c - 55) by congruence; lia|discriminate]. }
    destruct (IH _ _ _ _ _ H) as (L & NK & V); [lia|].
    assert (zlen (c :: s) = 1 + zlen s) by (unfold zlen; cbn [length]; lia).
    split; [lia|]. split; [lia|]. replace (k - n) with (Z.succ (k - (n + 1))) by lia. rewrite Z.pow_succ_r by lia.
    assert (0 < 10 ^ (k - (n + 1))) by (apply Z.pow_pos_nonneg; lia). nia.
Qed.
Lemma skip_len p s : zlen (skip p s) <= zlen s.
Proof. induction s as [|c s IH]; cbn [skip]; [lia|]. destruct (p c); [|lia]. unfold zlen in *. cbn [length]. lia. Qed.
Lemma scanu_len s v r : scanu s = Some (v, r) -> v <= 65535 -> zlen (dec v) + zlen r <= zlen s.
Proof.
  intros H0. pose proof (scanu_u32 _ _ _ H0) as U. revert H0. unfold scanu. pose proof (skip_len isspace s) as SL.
  assert (X : exists neg s2, (match skip isspace s with
    | c :: r => if c =? 45 then (true, r) else if c =? 43 then (false, r) else (false, skip isspace s)
    | [] => (false, skip isspace s) end) = (neg, s2) /\ zlen s2 <= zlen s).
  { destruct (skip isspace s) as [|c s1] eqn:ES; [do 2 eexists; split; [reflexivity|auto]|].
    assert (zlen (c :: s1) = 1 + zlen s1) by (unfold zlen; cbn [length]; lia).
    destruct (c =? 45); [|destruct (c =? 43)]; do 2 eexists; (split; [reflexivity|lia]). }
  destruct X as (neg & s2 & -> & L2). destruct (digits 10 0 0 s2) as [[w n] rest] eqn:ED.
  destruct (digits_val _ _ _ _ _ _ ED ltac:(lia)) as (LS & N0 & V). rewrite Z.sub_0_r, Z.add_0_l, Z.mul_1_l in *.
  destruct (n =? 0) eqn:E0; [discriminate|]. intros H HV. assert (r = rest) as -> by congruence.
  assert (N5 : 5 <= n -> zlen (dec v) <= n).
  { intros HN.
    pose proof (dec_len v 5). unfold is_u32 in U. change (10 ^ 5) with 100000 in *. lia. }
  destruct (5 <=? n) eqn:E5; [lia|].
  assert (W : w < 100000).
  { change 100000 with (10 ^ 5). eapply Z.lt_le_trans; [apply V|]. apply Z.pow_le_mono_r; lia. }
  unfold ULONG_MAX in H. replace (18446744073709551615 <? w) with false in H by lia.
  destruct neg.
  - assert (EV : v = u32 (- w)) by congruence. destruct (Z.eq_dec w 0) as [->|NW].
    + change (u32 (- 0)) with 0 in EV. subst v. change (zlen (dec 0)) with 1. lia.
    + exfalso. unfold u32 in EV. assert (EM : (- w) mod two32 = two32 - w) by (symmetry; apply Z.mod_unique with (q := -1); unfold two32; lia).
      unfold two32 in *. lia.
  - assert (EV : v = w) by (assert (v = u32 w) as -> by congruence; unfold u32, two32; apply Z.mod_small; lia).
    subst v. pose proof (dec_len w n V). lia.
Qed.

Definition tokcost (l : list chars) : Z := fold_right (fun t a => zlen t + 1 + a) 0 l.
Lemma pieces_cost d s l : pieces d s l -> tokcost l <= zlen s + 1.
Proof.
  induction 1 as [s H|sep t H H0 H1|sep t c s' l H H0 H1 Hc Hp IH]; cbn [tokcost fold_right].
  - pose proof (zlen_nonneg s). lia.
  - rewrite zlen_app. pose proof (zlen_nonneg sep). lia.
  - fold (tokcost l). rewrite !zlen_app. pose proof (zlen_nonneg sep). assert (zlen (c :: s') = 1 + zlen s') by (unfold zlen; cbn [length]; lia). lia.
Qed.

Lemma one_cost t tok t' : highest t = 65535 -> lowest t = 1 -> rangeSetAddOneStr t tok = Some t' ->
  exists f e, range_u32 (f, e) /\ rangeSetAdd t f e = Some t' /\ acceptable 1 65535 (f, e) /\ cost (f, e) <= zlen tok + 1 /\
    highest t' = 65535 /\ lowest t' = 1.
Proof.
  intros HH HL. unfold rangeSetAddOneStr.
  assert (K : forall f e, range_u32 (f, e) -> rangeSetAdd t f e = Some t' -> acceptable 1 65535 (f, e) /\ highest t' = 65535 /\ lowest t' = 1).
  { intros f e U A. split.
    - pose proof (add_decides t _ _ (f, e) HL HH) as D. unfold is_u32, UINT_MAX in D. specialize (D ltac:(lia) ltac:(lia) U).
      cbn [fst snd] in D. destruct (Rangeset_Proofs.accepts 1 65535 (f, e)) eqn:E; [apply accepts_iff; auto|congruence].
    - unfold rangeSetAdd in A. destruct (e <? f); try discriminate; destruct (_ && _); try discriminate; destruct (_ && _); try discriminate.
      rewrite <- HH, <- HL. inversion A; auto. }
  destruct (split_at 45 tok).
  - destruct (scanu tok) as [[f r]|] eqn:E1; [|discriminate]. destruct r as [|c r]; [discriminate|].
    destruct (c =? 45); [|discriminate]. destruct (scanu r) as [[l r']|] eqn:E2; [|discriminate].
    destruct (l <? f) eqn:ELF; [discriminate|]. intros H. exists f, l.
    assert (U : range_u32 (f, l)) by (split; eapply scanu_u32; eauto). destruct (K f l U H) as ((A1 & A2 & A3) & B). cbn [fst snd] in *.
    split; auto. split; auto. split; [split; auto|]. split; auto.
    pose proof (scanu_len _ _ _ E1 ltac:(lia)). pose proof (scanu_len _ _ _ E2 ltac:(lia)).
    assert (zlen (c :: r) = 1 + zlen r) by (unfold zlen; cbn [length]; lia). pose proof (zlen_nonneg r'). pose proof (zlen_nonneg (dec l)).
    rewrite cost_eq. destruct (f =? l); lia.
  - destruct (scanu tok) as [[f r]|] eqn:E1; [|discriminate]. intros H. exists f, f.
    assert (U : range_u32 (f, f)) by (split; eapply scanu_u32; eauto). destruct (K f f U H) as ((A1 & A2 & A3) & B). cbn [fst snd] in *.
    split; auto. split; auto. split; [split; auto|]. split; auto.
    pose proof (scanu_len _ _ _ E1 ltac:(lia)). pose proof (zlen_nonneg r). rewrite cost_eq, Z.eqb_refl. lia.
Qed.
Lemma toks_cost tks : forall t t', highest t = 65535 -> lowest t = 1 -> addToks t tks = (t', true) ->
  exists rs, length rs = length tks /\ Forall range_u32 rs /\ Forall (acceptable 1 65535) rs /\ t' = add_all t rs /\ total rs <= tokcost tks.
Proof.
  induction tks as [|tk tks IH]; intros t t' HH HL H; cbn [addToks] in H.
  - exists []. repeat split; auto. cbn. congruence. reflexivity.
  - destruct (rangeSetAddOneStr t tk) as [t1|] eqn:E; [|discriminate].
    destruct (one_cost _ _ _ HH HL E) as (f & e & U & A & AC & C & HH1 & HL1). destruct (IH _ _ HH1 HL1 H) as (rs & L & F & FA & -> & T).
    exists ((f, e) :: rs). split; [cbn; auto|]. split; [constructor; auto|]. split; [constructor; auto|].
    split; [cbn [add_all]; rewrite A; auto|]. cbn [total tokcost fold_right]. unfold total, tokcost in T. lia.
Qed.

(** What a set of ports is *)
Definition ports_of (t : rset) (tr : tree) : Prop :=
  rep (hp t) tr /\ root t = rt tr /\ canonical (ranges tr) /\ Forall (acceptable 1 65535) (ranges tr) /\
  (depth tr <= S (Z.to_nat (rangeSetSize t)))%nat /\
  forall v, exists b, inPorts (Some t) v = Ok b /\ (b = true <-> covered (ranges tr) v).

Lemma parsed_ports L s t : qsort_ok (sort_nodes L) -> parsePorts L s = Ok (Some t) ->
  exists tr, ports_of t tr /\ zlen (text tr) <= Z.min 1024 (zlen s) + 1.
Proof.
  intros Q. destruct new_ports as (t0 & C0 & C1). unfold parsePorts. rewrite C0.
  unfold rangeSetAddStr. set (s' := firstn (Z.to_nat 1024) s).
  destruct (toks_total [44; 32] (length s') s' (le_n _)) as (tks & ET). rewrite ET. cbn [obind].
  destruct (addToks t0 tks) as [t1 ok] eqn:EA. destruct ok; [|discriminate].
  assert (LH : lowest t0 = 1 /\ highest t0 = 65535) by (unfold rangeSetCreateLimited in C0; cbn in C0; inversion C0; auto).
  destruct LH as (LH1 & LH2).
  destruct (toks_cost _ _ _ LH2 LH1 EA) as (rs & LR & FR & FA & -> & TC). pose proof (toks_len _ _ _ _ ET) as LT.
  assert (LS : (length s' <= length s)%nat) by (unfold s'; rewrite firstn_length; lia).
  assert (LS2 : (length s' <= Z.to_nat 1024)%nat) by (unfold s'; rewrite firstn_length; lia).
  assert (Z1 : zlen rs <= UINT_MAX) by (unfold zlen, UINT_MAX; lia).
  assert (Z2 : (length rs <= S (length s))%nat) by lia.
  destruct (fresh_update (sort_nodes L) (S (length s)) t0 1 65535 rs Q C1 FR Z1 Z2)
    as (t' & tr & ETT & I & CN & CV & CU & CT & D & D2 & T1 & T2 & T3).
  rewrite ETT. cbn [obind]. intros H. assert (t' = t) by congruence. subst t'. clear H.
  destruct I as (I1 & _ & I3 & _).
  assert (FF : filter (Rangeset_Proofs.accepts 1 65535) rs = rs).
  { clear - FA. induction FA as [|r l A F IH]; [reflexivity|]. cbn [filter]. apply accepts_iff in A. rewrite A, IH. auto. }
  rewrite FF in CV.
  assert (DS : (depth tr <= S (Z.to_nat (rangeSetSize t)))%nat).
  { unfold rangeSetSize. rewrite CT. unfold zlen. rewrite Nat2Z.id.
    destruct (length (ranges tr)) as [|k] eqn:EL; [lia|]. pose proof (Nat.log2_lt_lin (S k)). lia. }
  exists tr. split.
  - split; auto. split; auto. split; auto. split.
    { apply Forall_forall. intros [f e] Hr.
      assert (FE : f <= e).
      { clear - CN Hr. induction (ranges tr) as [|[f1 e1] l IH]; [destruct Hr|].
        destruct (canonical_head_lt _ _ _ CN) as (A & B). destruct Hr as [K|K]; [injection K as -> ->; auto|apply B in K; lia]. }
      rewrite Forall_forall in FA.
      destruct (proj1 (CV f)) as (a & b & K & Hv); [exists f, e; split; auto; lia|]. apply FA in K. destruct K as (K1 & K2 & K3). cbn [fst snd] in *.
      destruct (proj1 (CV e)) as (a' & b' & K' & Hv'); [exists f, e; split; auto; lia|]. apply FA in K'. destruct K' as (K1' & K2' & K3'). cbn [fst snd] in *.
      split; cbn; lia. }
    split; auto. intros v. destruct (search_rep (hp t) tr v _ I1 (canonical_ordered _ CN) DS) as (b & Hb & Hc).
    exists b. cbn [inPorts]. unfold rangeSetIn. rewrite I3. auto.
  - rewrite text_total. assert (U : total (ranges tr) <= total rs).
    { apply union_cost; auto. eapply Forall_impl; [|exact FA]. intros r (A & _). exact A. }
    pose proof (pieces_cost _ _ _ (toks_pieces _ _ _ _ ET)).
    assert (zlen s' = Z.min 1024 (zlen s)) by (unfold s', zlen; rewrite firstn_length; lia). lia.
Qed.
