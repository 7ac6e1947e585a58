(** Proofs about the commands of ipu (C83), continued: contains, linklocal and
    several lines. *)
From Coq Require Import String.
From Verif Require Import Base Lists Cstr_Model Util_Model Util_Spec Util_Proofs Rangeset_Model Rangeset_Spec Rangeset2_Proofs IpKey_Spec Match_Spec
  Match_Proofs Cidr_Proofs Fwmark_Proofs Shm_Model Start_Spec Start_Proofs Lines_Proofs Opt2_Proofs Opt_Proofs Ipu_Model Ipu_Spec Ipu_Proofs Ipu2_Proofs Opt_Model Opt_Spec.

Lemma makeip_malformed wrap L its tail s net host sub tpl : makes its s net host sub tpl -> 52 < zlen s \/ ~ In 47 s ->
  cmdMakeip wrap L (line its tail) = Ok (1, []).
Proof.
  intros M B. destruct (makeip_line wrap L its tail s net host sub tpl M) as (n & h & u & _ & _ & _ & ->).
  unfold makeipText. destruct (52 <? zlen s) eqn:E; [reflexivity|]. rewrite split_none by (destruct B; auto; lia). reflexivity.
Qed.

(** ** contains *)
Lemma reads_fun L t w v w' v' : ilib_ok L -> reads L t w v -> reads L t w' v' -> w = w' /\ v = v'.
Proof.
  intros K R R'. destruct (reads_family L t w v K R) as (F & _). destruct (reads_family L t w' v' K R') as (F' & _).
  assert (w = w') by (rewrite <- (family_bits t w F), <- (family_bits t w' F'); reflexivity). subst w'. split; auto.
  destruct R as [(-> & b & P & ->)|(-> & b & P & ->)], R' as [(E & b' & P' & ->)|(E & b' & P' & ->)]; try discriminate; congruence.
Qed.
Lemma cidr_split x net s : cidr x net s -> exists r, split_at 47 x = Some (net, r) /\ atoi r = s /\ 0 <= s.
Proof.
  intros (d & -> & N & D & S). exists d. split; [apply split_some; auto|]. change (2 ^ 31) with 2147483648 in S. apply atoi_dec; auto. lia.
Qed.

Lemma contains_says wrap L its tail x net w c s arg more : ilib_ok L ->
  asks its x -> cidr x net s -> reads L net w c -> rest_words its tail = arg :: more -> 1 <= s <= w -> (wrap = true \/ ~ overflows w s) ->
  exists st, cmdContains wrap L (line its tail) = Ok (st, []) /\ (st = 0 \/ st = 1) /\
    (st = 0 <-> exists a, reads L arg w a /\ agree w s a c).
Proof.
  intros K A C R W S X. rewrite (contains_line wrap L its tail x arg more A W). destruct (cidr_split x net s C) as (r & E & At & _).
  destruct (reads_family L net w c K R) as (F & _). unfold containsText. rewrite E, At. cbv zeta. destruct (s =? 0) eqn:E0; [lia|].
  assert (Q : forall b : bool, exists st, Ok (if b then 0 else 1, ([] : chars)) = Ok (st, []) /\ (st = 0 \/ st = 1) /\ (st = 0 <-> b = true)).
  { intros []; eexists; (split; [reflexivity|]); split; auto; split; auto; discriminate. }
  assert (No : (forall a, ~ reads L arg w a) -> exists st, Ok (1, ([] : chars)) = Ok (st, []) /\ (st = 0 \/ st = 1) /\ (st = 0 <-> exists a, reads L arg w a /\ agree w s a c)).
  { intros N. exists 1. split; auto. split; auto. split; [discriminate|]. intros (a & Ra & _). destruct (N a Ra). }
  destruct R as [(-> & b & P & ->)|(-> & b & P & ->)].
  - destruct (ok_pton4 L K net b P) as (B & NC & _). rewrite (proj2 (colon_not net) NC).
    destruct (hasColon arg) eqn:HC.
    { apply No. intros a Ra. destruct (reads_family L arg 32 a K Ra) as ([[_ ?]|[Y _]] & _); [discriminate|]. apply colon_in in HC. contradiction. }
    destruct ((s <? 0) || (32 <? s)) eqn:ES; [lia|]. destruct (i_pton4 L arg) as [a|] eqn:Pa.
    2: { apply No. intros a [(_ & b' & Y & _)|(Y & _)]; [congruence|discriminate]. }
    destruct (ok_pton4 L K arg a Pa) as (Ba & _). rewrite P, !fromBytes_network by auto.
    destruct (contains_ok wrap (V4 (network b)) s (V4 (network a))) as (q & Eq & Iq).
    { apply network_bounds4; auto. } { apply network_bounds4; auto. } { cbn [width]. lia. }
    { destruct X as [|X]; auto. right. cbn [odd_prefix]. intros ->. apply X. left. auto. }
    rewrite Eq. cbn [obind died]. destruct (Q q) as (st & Es & D & I). exists st. split; auto. split; auto. rewrite I, Iq. cbn [member]. split.
    + intros G. exists (network a). split; [left; eauto|auto].
    + intros (v & [(_ & a' & Y & ->)|(Y & _)] & G); [|discriminate]. rewrite Pa in Y. inversion Y. subst. auto.
  - destruct (ok_pton6 L K net b P) as (B & NC & _). rewrite (proj2 (colon_in net) NC).
    destruct (hasColon arg) eqn:HC; cbn [negb].
    2: { apply No. intros a Ra. destruct (reads_family L arg 128 a K Ra) as ([[Y _]|[_ ?]] & _); [|discriminate]. apply colon_in in Y. congruence. }
    destruct ((s <? 0) || (128 <? s)) eqn:ES; [lia|]. destruct (i_pton6 L arg) as [a|] eqn:Pa.
    2: { apply No. intros a [(Y & _)|(_ & b' & Y & _)]; [discriminate|congruence]. }
    destruct (ok_pton6 L K arg a Pa) as (Ba & _). rewrite P. destruct (words16_ok a Ba) as (Wa & Va). destruct (words16_ok b B) as (Wb & Vb).
    destruct (contains_ok wrap (V6 (words16 b)) s (V6 (words16 a)) Wb Wa) as (q & Eq & Iq).
    { cbn [width]. lia. } { destruct X as [|X]; auto. right. cbn [odd_prefix]. unfold bit31. intros Y. apply X. right. auto. }
    rewrite Eq. cbn [obind died]. destruct (Q q) as (st & Es & D & I). exists st. split; auto. split; auto. rewrite I, Iq. cbn [member]. rewrite Va, Vb. split.
    + intros G. exists (network a). split; [right; eauto|auto].
    + intros (v & [(Y & _)|(_ & a' & Y & ->)] & G); [discriminate|]. rewrite Pa in Y. inversion Y. subst. auto.
Qed.

Lemma contains_refuses wrap L its tail x net w s arg more : ilib_ok L ->
  asks its x -> cidr x net s -> rest_words its tail = arg :: more -> s <> 0 -> family net w -> (no_address L net \/ w < s) ->
  cmdContains wrap L (line its tail) = Ok (1, []).
Proof.
  intros K A C W S F X. rewrite (contains_line wrap L its tail x arg more A W). destruct (cidr_split x net s C) as (r & E & At & P).
  unfold containsText. rewrite E, At. cbv zeta. destruct (s =? 0) eqn:E0; [lia|]. destruct F as [[F ->]|[F ->]].
  - rewrite (proj2 (colon_in net) F). destruct (hasColon arg); [|reflexivity]. cbn [negb]. destruct ((s <? 0) || (128 <? s)) eqn:ES; [reflexivity|].
    destruct (i_pton6 L arg); [|reflexivity]. destruct (i_pton6 L net) as [b|] eqn:Pn; [|reflexivity]. exfalso.
    destruct X as [X|X]; [|lia]. apply (X 128 (network b)). right. eauto.
  - rewrite (proj2 (colon_not net) F). destruct (hasColon arg); [reflexivity|]. destruct ((s <? 0) || (32 <? s)) eqn:ES; [reflexivity|].
    destruct (i_pton4 L arg); [|reflexivity]. destruct (i_pton4 L net) as [b|] eqn:Pn; [|reflexivity]. exfalso.
    destruct X as [X|X]; [|lia]. apply (X 32 (network b)). left. eauto.
Qed.
Lemma contains_malformed wrap L its tail x : asks its x -> ~ In 47 x -> cmdContains wrap L (line its tail) = Ok (1, []).
Proof.
  intros A N. destruct (rest_words its tail) as [|arg more] eqn:W; [apply (contains_no_arg wrap L its tail x A W)|].
  rewrite (contains_line wrap L its tail x arg more A W). unfold containsText. rewrite split_none by auto. reflexivity.
Qed.

(** A length that is no number *)
Lemma atoi_word d : match d with [] => True | c :: _ => 65 <= c end -> atoi d = 0.
Proof.
  destruct d as [|c d]; [reflexivity|]. intros H. unfold atoi, strtol. cbn [skip]. replace (isspace c) with false by (unfold isspace; lia).
  replace (c =? 45) with false by lia. replace (c =? 43) with false by lia. change (10 =? 0) with false. cbv iota.
  cbn [digits]. assert (G : match digit c with Some v => 10 <= v | None => True end).
  { unfold digit. destruct ((48 <=? c) && (c <=? 57)) eqn:E1; [lia|]. destruct ((97 <=? c) && (c <=? 122)) eqn:E2; [lia|].
    destruct ((65 <=? c) && (c <=? 90)) eqn:E3; [lia|auto]. }
  destruct (digit c) as [v|]; [|reflexivity]. destruct (v <? 10) eqn:E; [lia|]. reflexivity.
Qed.
Lemma contains_any wrap L its tail net d arg more : asks its (net ++ str "/" ++ d) -> ~ In 47 net ->
  (is_dec d 0 \/ match d with [] => True | c :: _ => 65 <= c end) -> rest_words its tail = arg :: more ->
  cmdContains wrap L (line its tail) = Ok (0, []).
Proof.
  intros A N D W. rewrite (contains_line wrap L its tail _ arg more A W). unfold containsText. change (str "/" ++ d) with (47 :: d).
  rewrite split_some by auto. replace (atoi d) with 0; [reflexivity|]. symmetry. destruct D as [D|D]; [apply atoi_dec; auto; lia|apply atoi_word; auto].
Qed.

(** ** linklocal *)
Lemma linklocal_says L its tail m more m0 m1 m2 m3 m4 m5 : ilib_ok L -> Forall (item_ok linklocalOpts) its -> rest_words its tail = m :: more ->
  i_aton L m = Some [m0; m1; m2; m3; m4; m5] ->
  exists t, cmdLinklocal L (line its tail) = Ok (0, t ++ [10]) /\
    i_pton6 L t = Some ([254; 128] ++ repeat 0 6 ++ [if Z.testbit m0 1 then m0 - 2 else m0 + 2; m1; m2; 255; 254; m3; m4; m5]).
Proof.
  intros K F W M. destruct linklocal_table as (T & Rq).
  destruct (line_vals2 linklocalOpts its tail T F (none_missing linklocalOpts its Rq)) as (vals & P & _).
  unfold cmdLinklocal, ipuOptions. rewrite P. cbn [obind]. rewrite W, M. destruct (ok_aton L K m _ M) as (_ & B).
  repeat (apply Forall_cons_iff in B; destruct B as [? B]). rewrite linklocal_eui by auto. cbn [obind]. eexists. split; [reflexivity|].
  apply (ok_ntop6 L K). split; [reflexivity|]. cbn [app repeat]. rewrite <- lxor2 by auto. repeat constructor; try lia.
  - apply Z.lxor_nonneg. lia.
  - rewrite lxor2 by auto. destruct (Z.testbit m0 1) eqn:E; [lia|]. enough (m0 <= 253) by lia. apply Z.nlt_ge. intros Y.
    assert (m0 = 254 \/ m0 = 255) as [->| ->] by lia; discriminate.
Qed.
Lemma linklocal_refuses L its tail : Forall (item_ok linklocalOpts) its ->
  match rest_words its tail with [] => True | m :: _ => i_aton L m = None end -> cmdLinklocal L (line its tail) = Ok (1, []).
Proof.
  intros F W. destruct linklocal_table as (T & Rq). destruct (line_vals2 linklocalOpts its tail T F (none_missing linklocalOpts its Rq)) as (vals & P & _).
  unfold cmdLinklocal, ipuOptions. rewrite P. cbn [obind]. destruct (rest_words its tail); [reflexivity|]. rewrite W. reflexivity.
Qed.

(** ** Several lines *)
Lemma shown_inj L w r r' s1 s2 sub tpl out : ilib_ok L -> shown_as L w r s1 s2 sub tpl out -> shown_as L w r' s1 s2 sub tpl out -> r = r'.
Proof.
  intros K (t & w1 & v1 & R1 & T1 & O1) (t' & w2 & v2 & R2 & T2 & O2).
  assert (E : t = t').
  { destruct (reads_family L t w1 v1 K R1) as (_ & _ & N1). destruct (reads_family L t' w2 v2 K R2) as (_ & _ & N2). destruct sub as [k|].
    - destruct O1 as (d & _ & ->). destruct O2 as (d' & _ & O2).
      assert (S1 := split_some 47 t (d ++ [10]) N1). assert (S2 := split_some 47 t' (d' ++ [10]) N2).
      change (str "/" ++ d ++ [10]) with (47 :: d ++ [10]) in O2. change (str "/" ++ d' ++ [10]) with (47 :: d' ++ [10]) in O2. congruence.
    - rewrite O1 in O2. apply app_inv_tail in O2. auto. }
  subst t'. destruct (reads_fun L t w1 v1 w2 v2 K R1 R2) as (-> & ->). destruct tpl as [x|].
  - destruct T1 as (p & P1 & _ & E1). destruct T2 as (q & P2 & _ & E2). destruct (reads_fun L x 128 p 128 q K P1 P2) as (_ & ->). lia.
  - destruct T1 as (_ & <-). destruct T2 as (_ & <-). reflexivity.
Qed.
Lemma makeip_distinct wrap L its tail its' tail' s base w v s1 s2 net host net' host' sub tpl out :
  ilib_ok L -> makes its s net host sub tpl -> makes its' s net' host' sub tpl -> slots s base s1 s2 -> reads L base w v ->
  usable w s1 s2 tpl -> (wrap = true \/ w - s1 <> 31) ->
  cmdMakeip wrap L (line its tail) = Ok (0, out) -> cmdMakeip wrap L (line its' tail') = Ok (0, out) -> net = net' /\ host = host'.
Proof.
  intros K M M' S R U X E E'. destruct (reads_family L base w v K R) as (F & _).
  assert (T : forall x, tpl = Some x -> exists p, reads L x 128 p).
  { intros x ->. destruct (i_pton6 L x) as [b|] eqn:P; [exists (network b); right; eauto|]. exfalso.
    rewrite (makeip_refuses wrap L its tail s base w s1 s2 net host sub (Some x)) in E; auto; [discriminate|].
    right. right. right. exists x. split; auto. intros p [(Y & _)|(_ & b & Y & _)]; [discriminate|congruence]. }
  assert (I : forall i ta n h, makes i s n h sub tpl -> cmdMakeip wrap L (line i ta) = Ok (0, out) -> in_slots w s1 s2 n h).
  { intros i ta n h Mi Ei. unfold in_slots. destruct (Z_le_dec 0 n); [destruct (Z_lt_dec n (2 ^ (s2 - s1))); [destruct (Z_le_dec 0 h); [destruct (Z_lt_dec h (2 ^ (w - s2))); [lia|]|]|]|];
      exfalso; rewrite (makeip_refuses wrap L i ta s base w s1 s2 n h sub tpl) in Ei; auto; try discriminate; right; left; unfold in_slots; lia. }
  destruct (makeip_prints wrap L its tail s base w v s1 s2 net host sub tpl K M S R U X T (I _ _ _ _ M E)) as (r & o & E1 & (_ & _ & C1 & C2) & D1).
  destruct (makeip_prints wrap L its' tail' s base w v s1 s2 net' host' sub tpl K M' S R U X T (I _ _ _ _ M' E')) as (r' & o' & E2 & (_ & _ & C1' & C2') & D2).
  assert (o = out) by congruence. assert (o' = out) by congruence. subst o o'.
  assert (r = r') by (eapply shown_inj; eauto). subst r'. split; congruence.
Qed.

Lemma makeip_contained wrap L its tail its' tail' s base w v s1 s2 net host x t more :
  ilib_ok L -> makes its s net host None None -> slots s base s1 s2 -> reads L base w v -> usable w s1 s2 None -> (wrap = true \/ w - s1 <> 31) ->
  cmdMakeip wrap L (line its tail) = Ok (0, t ++ [10]) ->
  asks its' x -> cidr x base s1 -> rest_words its' tail' = t :: more ->
  cmdContains wrap L (line its' tail') = Ok (0, []).
Proof.
  intros K M S R U X E A C W. destruct (reads_family L base w v K R) as (F & _).
  assert (I : in_slots w s1 s2 net host).
  { unfold in_slots. destruct (Z_le_dec 0 net); [destruct (Z_lt_dec net (2 ^ (s2 - s1))); [destruct (Z_le_dec 0 host); [destruct (Z_lt_dec host (2 ^ (w - s2))); [lia|]|]|]|];
      exfalso; rewrite (makeip_refuses wrap L its tail s base w s1 s2 net host None None) in E; auto; try discriminate; right; left; unfold in_slots; lia. }
  destruct (makeip_prints wrap L its tail s base w v s1 s2 net host None None K M S R U X) as (r & o & E1 & (_ & G & _) & (t' & w' & v' & Rt & (-> & ->) & Ot)); auto.
  { discriminate. }
  assert (t' = t). { rewrite E in E1. injection E1 as E1. cbn beta iota in Ot. rewrite Ot in E1. apply app_inv_tail in E1. auto. } subst t'.
  destruct U as (U1 & U2 & U3).
  destruct (contains_says wrap L its' tail' x base w v s1 t more K A C R W) as (st & Es & D & Q); [lia| |].
  { destruct X as [X|X]; auto. right. intros [(-> & ->)|(-> & Y)]; [lia|]. destruct (U3 eq_refl). lia. }
  rewrite Es. do 2 f_equal. apply Q. exists r. auto.
Qed.
