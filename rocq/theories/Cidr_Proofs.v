(** Proofs about CIDRs (C33, C34). *)
From Coq Require Import String Permutation Sorted Zpow_facts.
From Verif Require Import Base Lists Cstr_Model Util_Spec Rangeset_Model Rangeset_Spec Rangeset2_Proofs
  IpKey_Model IpKey_Spec Match_Model Match_Spec Match_Proofs Flow_Model Flow_Spec.

(** ** Numbers in network order *)
Lemma zlen_nonneg {A} (l : list A) : 0 <= zlen l.
Proof. unfold zlen. lia. Qed.

Lemma network_app a : forall b, network (a ++ b) = network a * 256 ^ zlen b + network b.
Proof.
  induction a as [|x a IH]; intros b; cbn [app network]; [lia|].
  rewrite IH, zlen_app, Z.pow_add_r by apply zlen_nonneg. ring.
Qed.
Lemma network_bound l : Forall (fun b => 0 <= b < 256) l -> 0 <= network l < 256 ^ zlen l.
Proof.
  induction 1 as [|x l H F IH]; cbn [network].
  - unfold zlen. cbn. lia.
  - unfold zlen in *. cbn [length]. rewrite Nat2Z.inj_succ, Z.pow_succ_r by lia. nia.
Qed.
Lemma network_inj a : forall b, length a = length b -> Forall (fun b => 0 <= b < 256) a ->
  Forall (fun b => 0 <= b < 256) b -> network a = network b -> a = b.
Proof.
  induction a as [|x a IH]; intros [|y b] L FA FB E; try discriminate; auto.
  apply Forall_cons_iff in FA, FB. destruct FA as (X & FA). destruct FB as (Y & FB).
  injection L as L. cbn [network] in E. pose proof (network_bound _ FA). pose proof (network_bound _ FB).
  assert (EL : zlen a = zlen b) by (unfold zlen; lia). rewrite EL in *.
  set (m := 256 ^ zlen b) in *.
  assert (x = y) by nia. subst y. f_equal. apply IH; auto. lia.
Qed.
Lemma be_eq l : be l = network l.
Proof. unfold be. rewrite be_network. lia. Qed.

Lemma words_eq a : bytes 16 a ->
  exists hi lo, words a = (hi, lo) /\ network a = hi * 2 ^ 64 + lo /\ 0 <= hi < 2 ^ 64 /\ 0 <= lo < 2 ^ 64.
Proof.
  intros (L & F). exists (network (firstn 8 a)), (network (skipn 8 a)).
  unfold words. rewrite !be_eq. split; auto.
  assert (L1 : zlen (firstn 8 a) = 8) by (unfold zlen; rewrite firstn_length; lia).
  assert (L2 : zlen (skipn 8 a) = 8) by (unfold zlen; rewrite skipn_length; lia).
  rewrite <- (firstn_skipn 8 a) in F. apply Forall_app in F. destruct F as (F1 & F2).
  apply network_bound in F1, F2. rewrite L1 in F1. rewrite L2 in F2.
  split; [|split; assumption].
  rewrite <- (firstn_skipn 8 a) at 1. rewrite network_app, L2. reflexivity.
Qed.

(** ** Masks *)
Lemma shl64_ok n : 0 <= n < 64 -> shl64 n = Ok (2 ^ 64 - 2 ^ n).
Proof.
  intros H. unfold shl64. replace ((0 <=? n) && (n <? 64)) with true by lia. f_equal.
  rewrite Z.shiftl_mul_pow2 by lia. unfold u64, two64, UINT64_MAX.
  change 18446744073709551616 with (2 ^ 64). change 18446744073709551615 with (2 ^ 64 - 1).
  assert (0 < 2 ^ n < 2 ^ 64) by (split; [apply Z.pow_pos_nonneg; lia|apply Z.pow_lt_mono_r; lia]).
  replace ((2 ^ 64 - 1) * 2 ^ n) with ((2 ^ 64 - 2 ^ n) + (2 ^ n - 1) * 2 ^ 64) by ring.
  rewrite Z.mod_add by lia. apply Z.mod_small. lia.
Qed.

Lemma land_high x n : 0 <= x < 2 ^ 64 -> 0 <= n <= 64 -> Z.land x (2 ^ 64 - 2 ^ n) = x / 2 ^ n * 2 ^ n.
Proof.
  intros X N.
  assert (E : 2 ^ 64 - 2 ^ n = Z.shiftl (Z.ones (64 - n)) n).
  { rewrite Z.shiftl_mul_pow2, Z.ones_equiv by lia. rewrite <- Z.sub_1_r, Z.mul_sub_distr_r, <- Z.pow_add_r by lia.
    replace (64 - n + n) with 64 by lia. lia. }
  rewrite E.
  assert (H : Z.land x (Z.shiftl (Z.ones (64 - n)) n) = Z.shiftl (Z.land (Z.shiftr x n) (Z.ones (64 - n))) n).
  { apply Z.bits_inj'. intros i I. rewrite Z.land_spec, !Z.shiftl_spec by lia.
    destruct (Z_lt_ge_dec i n).
    - rewrite !(Z.testbit_neg_r _ (i - n)) by lia. apply andb_false_r.
    - rewrite Z.land_spec, Z.shiftr_spec by lia. do 2 f_equal. lia. }
  rewrite H, Z.land_ones by lia. rewrite Z.shiftl_mul_pow2, Z.shiftr_div_pow2 by lia.
  f_equal. apply Z.mod_small. split; [apply Z.div_pos; [lia|apply Z.pow_pos_nonneg; lia]|].
  apply Z.div_lt_upper_bound; [apply Z.pow_pos_nonneg; lia|].
  rewrite <- Z.pow_add_r by lia. replace (n + (64 - n)) with 64 by lia. lia.
Qed.
Lemma land_eq x y n : 0 <= x < 2 ^ 64 -> 0 <= y < 2 ^ 64 -> 0 <= n <= 64 ->
  (Z.land x (2 ^ 64 - 2 ^ n) = Z.land y (2 ^ 64 - 2 ^ n) <-> x / 2 ^ n = y / 2 ^ n).
Proof.
  intros X Y N. rewrite !land_high by auto. assert (0 < 2 ^ n) by (apply Z.pow_pos_nonneg; lia). nia.
Qed.
Lemma land_idem x m : Z.land (Z.land x m) m = Z.land x m.
Proof. rewrite <- Z.land_assoc, Z.land_diag. auto. Qed.

(** The mask for each length, and what it keeps of an address *)
Lemma mask_ok p : 0 <= p <= 128 -> exists m, cidrMask p = Ok m /\
  forall a b, bytes 16 a -> bytes 16 b ->
    (maskAdr (words a) m = maskAdr (words b) m <-> same_prefix 128 p a b).
Proof.
  intros P. unfold cidrMask, same_prefix.
  destruct (64 <? p) eqn:C.
  - rewrite shl64_ok by lia. cbn [obind]. eexists. split; [reflexivity|].
    intros a b A B. destruct (words_eq a A) as (ah & al & Wa & Na & Ha & La).
    destruct (words_eq b B) as (bh & bl & Wb & Nb & Hb & Lb). rewrite Wa, Wb, Na, Nb.
    unfold maskAdr. cbn [fst snd].
    set (n := 128 - p) in *. assert (N : 0 <= n < 64) by lia.
    assert (M0 : UINT64_MAX = 2 ^ 64 - 2 ^ 0) by reflexivity. rewrite M0.
    assert (Q : 0 < 2 ^ n) by (apply Z.pow_pos_nonneg; lia).
    assert (E64 : 2 ^ 64 = 2 ^ (64 - n) * 2 ^ n) by (rewrite <- Z.pow_add_r by lia; f_equal; lia).
    assert (EQ : forall h l, (h * 2 ^ 64 + l) / 2 ^ n = h * 2 ^ (64 - n) + l / 2 ^ n).
    { intros h l. rewrite E64, Z.mul_assoc, Z.add_comm, Z.div_add by lia. lia. }
    rewrite !EQ.
    assert (D : forall l, 0 <= l < 2 ^ 64 -> 0 <= l / 2 ^ n < 2 ^ (64 - n)).
    { intros l H. split; [apply Z.div_pos; lia|]. apply Z.div_lt_upper_bound; [lia|]. lia. }
    pose proof (D _ La). pose proof (D _ Lb).
    split.
    + intros E. assert (E1 : Z.land ah (2 ^ 64 - 2 ^ 0) = Z.land bh (2 ^ 64 - 2 ^ 0)) by congruence.
      assert (E2 : Z.land al (2 ^ 64 - 2 ^ n) = Z.land bl (2 ^ 64 - 2 ^ n)) by congruence.
      apply land_eq in E1; auto; [|lia]. apply land_eq in E2; auto; [|lia].
      rewrite !Z.div_1_r in E1. rewrite E1, E2. auto.
    + intros E. set (m := 2 ^ (64 - n)) in *.
      assert (ah = bh) by nia. assert (al / 2 ^ n = bl / 2 ^ n) by nia.
      f_equal; [congruence|]. apply land_eq; auto; lia.
  - assert (K : exists n, n = 64 - p) by eauto. destruct K as (n & En).
    assert (G : forall a b, bytes 16 a -> bytes 16 b ->
       (maskAdr (words a) (2 ^ 64 - 2 ^ n, 0) = maskAdr (words b) (2 ^ 64 - 2 ^ n, 0) <->
        network a / 2 ^ (128 - p) = network b / 2 ^ (128 - p))).
    { intros a b A B. destruct (words_eq a A) as (ah & al & Wa & Na & Ha & La).
      destruct (words_eq b B) as (bh & bl & Wb & Nb & Hb & Lb). rewrite Wa, Wb, Na, Nb.
      unfold maskAdr. cbn [fst snd]. rewrite !Z.land_0_r.
      replace (128 - p) with (64 + n) by lia. rewrite Z.pow_add_r by lia.
      assert (0 < 2 ^ n) by (apply Z.pow_pos_nonneg; lia).
      rewrite <- !Z.div_div by lia.
      assert (EQ : forall h l, 0 <= l < 2 ^ 64 -> (h * 2 ^ 64 + l) / 2 ^ 64 = h).
      { intros h l H'. rewrite Z.add_comm, Z.div_add by lia. rewrite Z.div_small by lia. lia. }
      rewrite !EQ by auto. rewrite <- (land_eq ah bh n) by (auto; lia).
      split; intros E; congruence. }
    destruct (p =? 0) eqn:Z0.
    + exists (0, 0). split; auto. assert (E : (0, 0) = (2 ^ 64 - 2 ^ n, 0)).
      { replace n with 64 by lia. reflexivity. } rewrite E. exact G.
    + rewrite shl64_ok by lia. cbn [obind]. eexists. split; [reflexivity|]. rewrite <- En. exact G.
Qed.

Lemma in_cidr_model m a b : bytes 16 a -> bytes 16 b ->
  (addrInCidr (mkCidr (maskAdr (words a) m) m) b = true <-> maskAdr (words a) m = maskAdr (words b) m).
Proof.
  intros _ _. unfold addrInCidr. cbn [c_adr c_mask]. rewrite andb_true_iff, !Z.eqb_eq.
  unfold maskAdr. cbn [fst snd]. split; [intros (E1 & E2); congruence|intros E; split; congruence].
Qed.

(** ** IPv4 *)
Lemma mapped_bytes q : bytes 4 q -> bytes 16 (mapped q).
Proof.
  intros (L & F). split; [cbn; lia|]. unfold mapped. apply Forall_app. split; auto. repeat constructor; lia.
Qed.
Lemma v4_prefix p q adr : bytes 4 q -> bytes 16 adr -> 0 <= p <= 32 ->
  (same_prefix 128 (96 + p) adr (mapped q) <-> in_cidr (V4 q p) adr).
Proof.
  intros BQ BA P. cbn [in_cidr]. unfold same_prefix.
  replace (128 - (96 + p)) with (32 - p) by lia.
  set (n := 32 - p). assert (N : 0 <= n <= 32) by lia.
  assert (Q : 0 < 2 ^ n) by (apply Z.pow_pos_nonneg; lia).
  assert (E32 : 2 ^ 32 = 2 ^ (32 - n) * 2 ^ n) by (rewrite <- Z.pow_add_r by lia; f_equal; lia).
  assert (EQ : forall h l, (h * 2 ^ 32 + l) / 2 ^ n = h * 2 ^ (32 - n) + l / 2 ^ n).
  { intros h l. rewrite E32, Z.mul_assoc, Z.add_comm, Z.div_add by lia. lia. }
  assert (D : forall l, 0 <= l < 2 ^ 32 -> 0 <= l / 2 ^ n < 2 ^ (32 - n)).
  { intros l H. split; [apply Z.div_pos; lia|]. apply Z.div_lt_upper_bound; [lia|]. lia. }
  assert (NM : forall a, bytes 4 a -> network (mapped a) = network [0;0;0;0;0;0;0;0;0;0;255;255] * 2 ^ 32 + network a).
  { intros a (L & _). unfold mapped. rewrite network_app. replace (zlen a) with 4 by (unfold zlen; lia). reflexivity. }
  assert (NB : forall a, bytes 4 a -> 0 <= network a < 2 ^ 32).
  { intros a (L & F). apply network_bound in F. replace (zlen a) with 4 in F by (unfold zlen; lia). exact F. }
  rewrite (NM q BQ), EQ. pose proof (D _ (NB q BQ)).
  split.
  - intros E. destruct BA as (LA & FA). exists (skipn 12 adr).
    assert (FS : bytes 4 (skipn 12 adr)).
    { split; [rewrite skipn_length; lia|]. rewrite <- (firstn_skipn 12 adr) in FA. apply Forall_app in FA. apply FA. }
    split; auto. rewrite <- (firstn_skipn 12 adr) in E. rewrite network_app in E.
    replace (zlen (skipn 12 adr)) with 4 in E by (unfold zlen; rewrite skipn_length; lia).
    change (256 ^ 4) with (2 ^ 32) in E. rewrite EQ in E. pose proof (D _ (NB _ FS)).
    set (m := 2 ^ (32 - n)) in *.
    assert (network (firstn 12 adr) = network [0;0;0;0;0;0;0;0;0;0;255;255]) by nia.
    split.
    + rewrite <- (firstn_skipn 12 adr) at 1. unfold mapped. f_equal. apply network_inj; auto.
      * rewrite firstn_length. change (length [0;0;0;0;0;0;0;0;0;0;255;255]) with 12%nat. lia.
      * rewrite <- (firstn_skipn 12 adr) in FA. apply Forall_app in FA. apply FA.
      * repeat constructor; lia.
    + nia.
  - intros (a & BB & -> & E). rewrite (NM a BB), EQ, E. auto.
Qed.

(** ** Texts *)
Lemma split_app c a b : ~ In c a -> split_at c (a ++ c :: b) = Some (a, b).
Proof.
  induction a as [|x a IH]; intros H; cbn.
  - rewrite Z.eqb_refl. auto.
  - replace (x =? c) with false by (cbn in H; symmetry; apply Z.eqb_neq; intuition).
    rewrite IH; auto. cbn in H. intuition.
Qed.
Lemma dec_chars d v : is_dec d v -> Forall (fun c => 48 <= c <= 57) d /\ 1 <= zlen d.
Proof. intros (N & F & _). split; auto. destruct d; [congruence|]. unfold zlen. cbn [length]. lia. Qed.
Lemma dec_nonneg d v : is_dec d v -> 0 <= v.
Proof.
  intros (_ & F & E & _). rewrite <- E. apply fold_dec_nonneg; auto. lia.
Qed.
(** Length of a decimal number below 1000 *)
Lemma dec_len3 d v : is_dec d v -> v < 1000 -> zlen d <= 3.
Proof.
  intros (N & F & E & Z0) V. destruct d as [|a [|b [|c [|e d]]]]; try (unfold zlen; cbn; lia).
  exfalso. apply Forall_cons_iff in F. destruct F as (A & F). apply Forall_cons_iff in F. destruct F as (B & F).
  apply Forall_cons_iff in F. destruct F as (C & F). apply Forall_cons_iff in F. destruct F as (D & F).
  cbn [fold_left] in E. cbn [hd] in Z0.
  assert (a <> 48) by (intros ->; specialize (Z0 eq_refl); discriminate).
  assert (G : forall l x, Forall (fun c => 48 <= c <= 57) l -> 0 <= x -> x <= fold_left (fun a c => a * 10 + (c - 48)) l x).
  { induction l as [|y l IHl]; intros x FL X; cbn; [lia|]. apply Forall_cons_iff in FL. destruct FL as (Y & FL).
    etransitivity; [|apply IHl; auto; lia]. lia. }
  specialize (G d ((((0 * 10 + (a - 48)) * 10 + (b - 48)) * 10 + (c - 48)) * 10 + (e - 48)) F ltac:(lia)). lia.
Qed.

Lemma quad_facts s q : is_quad s q -> bytes 4 q /\ (forall x, In x s -> x = 46 \/ 48 <= x <= 57) /\ zlen s <= 15.
Proof.
  intros (a & b & c & d & x & y & z & w & -> & -> & A & B & C & D & X & Y & Z & W).
  pose proof (dec_nonneg _ _ A). pose proof (dec_nonneg _ _ B). pose proof (dec_nonneg _ _ C). pose proof (dec_nonneg _ _ D).
  split; [|split].
  - split; auto. repeat constructor; lia.
  - intros k K. assert (G : forall l v, is_dec l v -> In k l -> 48 <= k <= 57).
    { intros l v (_ & F & _) I. rewrite Forall_forall in F. apply F in I. auto. }
    rewrite !in_app_iff in K. destruct K as [K|[[<-|[]]|[K|[[<-|[]]|[K|[[<-|[]]|K]]]]]]; eauto.
  - rewrite !zlen_app. change (zlen (str ".")) with 1.
    apply dec_len3 in A; [|lia]. apply dec_len3 in B; [|lia]. apply dec_len3 in C; [|lia]. apply dec_len3 in D; [|lia]. lia.
Qed.

(** The text of the prefix length: what is compared and what it becomes *)
Definition v4_len (n : Z) : Z := u32 (n + 96).

Lemma parse_v4 L a q d n : pton_ok L -> is_quad a q -> is_dec d n -> is_u32 n -> v4_len n <= 128 ->
  exists m, cidrMask (v4_len n) = Ok m /\
    parseCidr L (a ++ str "/" ++ d) = Ok (Some (mkCidr (maskAdr (words (mapped q)) m) m)).
Proof.
  intros (P1 & P2) Q D U V. destruct (quad_facts _ _ Q) as (BQ & CH & LA).
  destruct (mask_ok (v4_len n)) as (m & M & _).
  { unfold v4_len, u32 in *. pose proof (Z.mod_pos_bound (n + 96) two32 ltac:(reflexivity)). lia. }
  exists m. split; auto. unfold parseCidr, cidrText.
  destruct (dec_chars _ _ D) as (FD & LD).
  rewrite split_at_none.
  2:{ intros x H ->. rewrite !in_app_iff in H. destruct H as [H|[H|H]].
      - apply CH in H. lia.
      - cbn in H. intuition lia.
      - rewrite Forall_forall in FD. apply FD in H. lia. }
  cbn [obind]. 
  assert (LZ : (length (str "::ffff:" ++ a ++ str "/" ++ d) <= 127)%nat).
  { assert (zlen d <= 10).
    { destruct D as (_ & F & E & Z0). unfold is_u32, UINT_MAX in U.
      destruct (Z_le_gt_dec (zlen d) 10) as [|G]; [auto|exfalso].
      destruct d as [|c d]; [unfold zlen in LD; cbn in LD; lia|].
      cbn [hd] in Z0. assert (c <> 48) by (intros ->; specialize (Z0 eq_refl); injection Z0 as ->; unfold zlen in G; cbn in G; lia).
      apply Forall_cons_iff in F. destruct F as (C & F). cbn [fold_left] in E.
      assert (GG : forall l x, Forall (fun c => 48 <= c <= 57) l -> 0 <= x -> x * 10 ^ zlen l <= fold_left (fun a c => a * 10 + (c - 48)) l x).
      { induction l as [|y l IHl]; intros x FL X; cbn [fold_left]; [unfold zlen; cbn; lia|].
        apply Forall_cons_iff in FL. destruct FL as (Y & FL).
        etransitivity; [|apply IHl; auto; lia].
        unfold zlen. cbn [length]. rewrite Nat2Z.inj_succ, Z.pow_succ_r by lia.
        assert (0 < 10 ^ Z.of_nat (length l)) by (apply Z.pow_pos_nonneg; lia). nia. }
      specialize (GG d (0 * 10 + (c - 48)) F ltac:(lia)).
      assert (10 ^ 10 <= 10 ^ zlen d).
      { apply Z.pow_le_mono_r; [lia|]. unfold zlen in *. cbn [length] in G. lia. }
      change (10 ^ 10) with 10000000000 in *. nia. }
    rewrite !app_length. change (length (str "::ffff:")) with 7%nat. change (length (str "/")) with 1%nat.
    unfold zlen in *. lia. }
  rewrite firstn_all2 by exact LZ.
  change (str "/" ++ d) with (47 :: d). rewrite app_assoc.
  rewrite split_app.
  2:{ rewrite in_app_iff. intros [H|H]; [cbn in H; intuition lia|]. apply CH in H. lia. }
  rewrite <- (app_nil_r d). rewrite (scanu_dec d n []) by auto.
  fold (v4_len n). replace (128 <? v4_len n) with false by lia.
  rewrite (P2 _ _ Q), M. reflexivity.
Qed.

Lemma parse_v6 L a b d n : pton_ok L -> In 58 a -> ~ In 47 a -> pton L a = Some b -> is_dec d n -> n <= 128 ->
  zlen (a ++ str "/" ++ d) < 128 ->
  exists m, cidrMask n = Ok m /\
    parseCidr L (a ++ str "/" ++ d) = Ok (Some (mkCidr (maskAdr (words b) m) m)).
Proof.
  intros (P1 & P2) I58 I47 PT D N LL. destruct (dec_chars _ _ D) as (FD & LD). pose proof (dec_nonneg _ _ D).
  destruct (mask_ok n ltac:(lia)) as (m & M & _). exists m. split; auto. unfold parseCidr, cidrText.
  destruct (split_at 58 (a ++ str "/" ++ d)) eqn:S.
  2:{ exfalso. apply (split_at_some (a ++ str "/" ++ d) 58); auto. apply in_or_app. auto. }
  replace (zlen (a ++ str "/" ++ d) <? 128) with true by lia. cbn [obind].
  change (str "/" ++ d) with (47 :: d). rewrite split_app by auto.
  rewrite <- (app_nil_r d) at 1. rewrite (scanu_dec d n []) by (auto; unfold is_u32, UINT_MAX; lia).
  cbv iota. replace (128 <? n) with false by lia. rewrite PT, M. reflexivity.
Qed.

Lemma cidr_ok L s c : libc_ok L -> cidr_text L s c -> exists cd, parseCidr L s = Ok (Some cd) /\
  forall adr, bytes 16 adr -> (addrInCidr cd adr = true <-> in_cidr c adr).
Proof.
  intros (PO & _) H. destruct c as [q p|b p].
  - destruct H as (a & d & -> & Q & D & P). pose proof (dec_nonneg _ _ D).
    assert (V : v4_len p = 96 + p) by (unfold v4_len, u32; rewrite Z.mod_small by (unfold two32; lia); lia).
    destruct (parse_v4 L a q d p PO Q D) as (m & M & E); [unfold is_u32, UINT_MAX; lia|lia|].
    eexists. split; [exact E|]. intros adr BA. destruct (quad_facts _ _ Q) as (BQ & _).
    rewrite in_cidr_model by (auto using mapped_bytes). rewrite <- v4_prefix by (auto; lia).
    rewrite V in M. destruct (mask_ok (96 + p) ltac:(lia)) as (m' & M' & G). rewrite M in M'. injection M' as <-.
    rewrite (G (mapped q) adr) by auto using mapped_bytes. unfold same_prefix. split; auto.
  - destruct H as (a & d & -> & A1 & A2 & PT & D & P & LL). pose proof (dec_nonneg _ _ D).
    destruct (parse_v6 L a b d p PO A1 A2 PT D P LL) as (m & M & E).
    eexists. split; [exact E|]. intros adr BA. pose proof (proj1 PO _ _ PT) as BB.
    rewrite in_cidr_model by auto. destruct (mask_ok p ltac:(lia)) as (m' & M' & G).
    rewrite M in M'. injection M' as <-. rewrite (G b adr) by auto. cbn [in_cidr]. unfold same_prefix. split; auto.
Qed.

(** ** Printing *)
Lemma ones_ok fuel : forall n, 0 <= n <= 64 -> (64 - Z.to_nat n <= fuel)%nat ->
  ones fuel (2 ^ 64 - 2 ^ n) = 64 - n.
Proof.
  induction fuel as [|fuel IH]; intros n N F.
  - cbn [ones]. lia.
  - destruct (Z.eq_dec n 64) as [->|NE].
    { cbn [ones]. replace (2 ^ 64 - 2 ^ 64) with 0 by lia. rewrite Z.testbit_0_l. lia. }
    assert (P : 0 < 2 ^ n) by (apply Z.pow_pos_nonneg; lia).
    assert (Q : 2 ^ n <= 2 ^ 63) by (apply Z.pow_le_mono_r; lia).
    cbn [ones].
    assert (T : Z.testbit (2 ^ 64 - 2 ^ n) 63 = true).
    { apply Z.testbit_true; [lia|]. change (2 ^ 64) with (2 * 2 ^ 63).
      replace ((2 * 2 ^ 63 - 2 ^ n) / 2 ^ 63) with 1; [reflexivity|].
      apply Z.div_unique with (2 ^ 63 - 2 ^ n); lia. }
    rewrite T.
    assert (E : u64 ((2 ^ 64 - 2 ^ n) * 2) = 2 ^ 64 - 2 ^ (n + 1)).
    { unfold u64, two64. change 18446744073709551616 with (2 ^ 64).
      assert (E1 : 2 ^ (n + 1) = 2 ^ n * 2) by (rewrite Z.pow_add_r by lia; reflexivity).
      assert (2 ^ (n + 1) <= 2 ^ 64) by (apply Z.pow_le_mono_r; lia).
      replace ((2 ^ 64 - 2 ^ n) * 2) with ((2 ^ 64 - 2 ^ (n + 1)) + 1 * 2 ^ 64) by lia.
      rewrite Z.mod_add by lia. apply Z.mod_small. lia. }
    rewrite E, IH by lia. lia.
Qed.
Lemma leadingones_ok n : 0 <= n <= 64 -> leadingones (2 ^ 64 - 2 ^ n) = 64 - n.
Proof.
  intros N. unfold leadingones.
  destruct (Z.eq_dec n 0) as [->|N0]; [reflexivity|].
  destruct (Z.eq_dec n 64) as [->|N64]; [reflexivity|].
  assert (P : 1 < 2 ^ n < 2 ^ 64).
  { split; [apply Z.pow_gt_1; lia|apply Z.pow_lt_mono_r; lia]. }
  unfold UINT64_MAX. replace (2 ^ 64 - 2 ^ n =? 18446744073709551615) with false by lia.
  replace (2 ^ 64 - 2 ^ n =? 0) with false by lia. apply ones_ok; lia.
Qed.
Lemma printed_mask p m a : 0 <= p <= 128 -> cidrMask p = Ok m -> printedLength (mkCidr a m) = p.
Proof.
  intros P. unfold cidrMask, printedLength. cbn [c_mask]. destruct (64 <? p) eqn:C.
  - rewrite shl64_ok by lia. cbn [obind]. intros E.
    assert (m = (UINT64_MAX, 2 ^ 64 - 2 ^ (128 - p))) as -> by congruence. cbn [fst snd].
    change (leadingones UINT64_MAX) with 64. rewrite leadingones_ok by lia. lia.
  - destruct (p =? 0) eqn:Z0.
    + intros E. assert (m = (0, 0)) as -> by congruence. cbn. lia.
    + rewrite shl64_ok by lia. cbn [obind]. intros E.
      assert (m = (2 ^ 64 - 2 ^ (64 - p), 0)) as -> by congruence. cbn [fst snd].
      change (leadingones 0) with 0. rewrite leadingones_ok by lia. lia.
Qed.

(** C34: which lengths are accepted *)
Lemma printed_ok L s c : libc_ok L -> cidr_text L s c ->
  exists cd, parseCidr L s = Ok (Some cd) /\ printedLength cd = shown c.
Proof.
  intros (PO & _) H. destruct c as [q p|b p].
  - destruct H as (a & d & -> & Q & D & P). pose proof (dec_nonneg _ _ D).
    assert (V : v4_len p = 96 + p) by (unfold v4_len, u32; rewrite Z.mod_small by (unfold two32; lia); lia).
    destruct (parse_v4 L a q d p PO Q D) as (m & M & E); [unfold is_u32, UINT_MAX; lia|lia|].
    eexists. split; [exact E|]. rewrite V in M. cbn [shown]. eapply printed_mask; eauto. lia.
  - destruct H as (a & d & -> & A1 & A2 & PT & D & P & LL). pose proof (dec_nonneg _ _ D).
    destruct (parse_v6 L a b d p PO A1 A2 PT D P LL) as (m & M & E).
    eexists. split; [exact E|]. cbn [shown]. eapply printed_mask; eauto; lia.
Qed.

Lemma refused_v6 L a d n : In 58 a -> ~ In 47 a -> is_dec d n -> 128 < n <= UINT_MAX -> zlen (a ++ str "/" ++ d) < 128 ->
  parseCidr L (a ++ str "/" ++ d) = Ok None.
Proof.
  intros I58 I47 D N LL. unfold parseCidr, cidrText.
  destruct (split_at 58 (a ++ str "/" ++ d)) eqn:S.
  2:{ exfalso. apply (split_at_some (a ++ str "/" ++ d) 58); auto. apply in_or_app. auto. }
  replace (zlen (a ++ str "/" ++ d) <? 128) with true by lia. cbn [obind].
  change (str "/" ++ d) with (47 :: d). rewrite split_app by auto.
  rewrite <- (app_nil_r d). rewrite (scanu_dec d n []) by (auto; unfold is_u32; lia).
  cbv iota. replace (128 <? n) with true by lia. auto.
Qed.
Lemma refused_v4 L a d n : ~ In 58 a -> ~ In 47 a -> is_dec d n -> 32 < n < UINT_MAX - 95 -> zlen (a ++ str "/" ++ d) <= 120 ->
  parseCidr L (a ++ str "/" ++ d) = Ok None.
Proof.
  intros I58 I47 D N LL. unfold parseCidr, cidrText.
  destruct (dec_chars _ _ D) as (FD & LD).
  rewrite split_at_none.
  2:{ intros x H ->. rewrite !in_app_iff in H. destruct H as [H|[H|H]]; auto.
      - cbn in H. intuition lia.
      - rewrite Forall_forall in FD. apply FD in H. lia. }
  cbn [obind]. rewrite firstn_all2.
  2:{ rewrite app_length. change (length (str "::ffff:")) with 7%nat. unfold zlen in LL. lia. }
  change (str "/" ++ d) with (47 :: d). rewrite app_assoc. rewrite split_app.
  2:{ rewrite in_app_iff. intros [H|H]; [cbn in H; intuition lia|auto]. }
  rewrite <- (app_nil_r d). rewrite (scanu_dec d n []) by (auto; unfold is_u32; lia).
  unfold u32. unfold UINT_MAX in N. rewrite Z.mod_small by (unfold two32; lia). replace (128 <? n + 96) with true by lia. auto.
Qed.
