(** The tables in the bytes of the shared memory. *)
From Coq Require Import String.
From Verif Require Import Base Lists Cstr_Model Rangeset_Model Rangeset_Spec Match_Proofs Maglev_Model Config_Model MaglevInit_Proofs Shm_Model Shm_Spec.

(** ** Words *)
Lemma le4_val v : v mod 256 + 256 * (v / 256 mod 256) + 65536 * (v / 65536 mod 256) + 16777216 * (v / 16777216 mod 256) = u32 v.
Proof. unfold u32, two32. Z.div_mod_to_equations; lia. Qed.
Lemma zlen_bytes ws : zlen (bytes_of ws) = 4 * zlen ws.
Proof. unfold bytes_of, zlen. induction ws as [|w ws IH]; [reflexivity|]. cbn [flat_map]. rewrite app_length. cbn [le4 length] in *. lia. Qed.
Lemma skip_bytes ws : forall n, skipn (4 * n) (bytes_of ws) = bytes_of (skipn n ws).
Proof.
  induction ws as [|w ws IH]; intros n; [rewrite !skipn_nil; reflexivity|]. destruct n as [|n]; [reflexivity|].
  replace (4 * S n)%nat with (S (S (S (S (4 * n)))))%nat by lia. cbn [bytes_of flat_map le4 app skipn]. apply IH.
Qed.
Lemma first_bytes ws : forall n, firstn (4 * n) (bytes_of ws) = bytes_of (firstn n ws).
Proof.
  induction ws as [|w ws IH]; intros n; [rewrite !firstn_nil; reflexivity|]. destruct n as [|n]; [reflexivity|].
  replace (4 * S n)%nat with (S (S (S (S (4 * n)))))%nat by lia. cbn [bytes_of flat_map le4 app firstn]. rewrite IH. reflexivity.
Qed.
Lemma bytes_app a b : bytes_of (a ++ b) = bytes_of a ++ bytes_of b.
Proof. unfold bytes_of. apply flat_map_app. Qed.
Lemma ld_word ws i w : znth ws i = Some w -> ld (bytes_of ws) (4 * i) = Ok (u32 w).
Proof.
  intros Z. pose proof (znth_some_range _ _ _ _ Z) as R. unfold ld. destruct (4 * i <? 0) eqn:E; [lia|].
  replace (Z.to_nat (4 * i)) with (4 * Z.to_nat i)%nat by lia. rewrite skip_bytes.
  unfold znth in Z. destruct (i <? 0); [discriminate|]. revert Z. generalize (Z.to_nat i). clear. intros n. revert ws.
  induction n as [|n IH]; intros [|x ws] Z; cbn [nth_error] in Z; try discriminate; [|apply IH; exact Z].
  inversion Z; subst. cbn [skipn bytes_of flat_map le4 app]. rewrite le4_val. reflexivity.
Qed.
Lemma s32_u32 w : int32 w -> s32 (u32 w) = w.
Proof.
  unfold int32, s32, u32. intros H. rewrite Z.mod_mod by (unfold two32; lia). unfold two32.
  destruct (w mod 4294967296 <? 2147483648) eqn:E; Z.div_mod_to_equations; lia.
Qed.
Lemma lds_word ws i w : znth ws i = Some w -> int32 w -> lds (bytes_of ws) (4 * i) = Ok w.
Proof. intros Z I. unfold lds. rewrite (ld_word ws i w Z). cbn. f_equal. apply s32_u32. exact I. Qed.
Lemma upd_split A (l : list A) : forall n x v, nth_error l n = Some x -> upd l n v = firstn n l ++ v :: skipn (S n) l.
Proof.
  induction l as [|y l IH]; intros [|n] x v H; cbn [nth_error] in H; try discriminate; [reflexivity|].
  cbn [upd firstn app]. rewrite (IH n x v H). reflexivity.
Qed.
Lemma st_word ws i w v : znth ws i = Some w -> st (bytes_of ws) (4 * i) v = Ok (bytes_of (zupd ws i v)).
Proof.
  intros Z. pose proof (znth_some_range _ _ _ _ Z) as R. unfold st. rewrite zlen_bytes.
  destruct (4 * i <? 0) eqn:E1; [lia|]. destruct (4 * zlen ws <? 4 * i + 4) eqn:E2; [lia|]. cbn [orb]. f_equal.
  replace (Z.to_nat (4 * i)) with (4 * Z.to_nat i)%nat by lia. replace (Z.to_nat (4 * i + 4)) with (4 * S (Z.to_nat i))%nat by lia.
  rewrite skip_bytes, first_bytes. unfold znth, zupd in *. destruct (i <? 0); [discriminate|].
  rewrite (upd_split _ _ _ _ v Z), bytes_app. reflexivity.
Qed.

(** ** Positions in the list of words *)
Lemma znth_app_r A (a b : list A) i : 0 <= i -> znth (a ++ b) (zlen a + i) = znth b i.
Proof.
  intros H. pose proof (zlen_nonneg _ a). unfold znth, zlen in *. destruct (_ <? 0) eqn:E; [lia|]. destruct (i <? 0) eqn:E'; [lia|].
  rewrite nth_error_app2 by lia. f_equal. lia.
Qed.
Lemma znth_app_l A (a b : list A) i : i < zlen a -> znth (a ++ b) i = znth a i.
Proof. intros H. unfold znth, zlen in *. destruct (i <? 0) eqn:E; auto. apply nth_error_app1. lia. Qed.
Lemma upd_app_r A (a b : list A) n v : upd (a ++ b) (length a + n) v = a ++ upd b n v.
Proof. induction a as [|x a IH]; cbn; [reflexivity|]. rewrite IH. reflexivity. Qed.
Lemma upd_app_l A (a b : list A) : forall n v, (n < length a)%nat -> upd (a ++ b) n v = upd a n v ++ b.
Proof. induction a as [|x a IH]; intros [|n] v H; cbn in *; try lia; [reflexivity|]. rewrite IH by lia. reflexivity. Qed.
Lemma zupd_app_r A (a b : list A) i v : 0 <= i -> zupd (a ++ b) (zlen a + i) v = a ++ zupd b i v.
Proof.
  intros H. pose proof (zlen_nonneg _ a). unfold zupd, zlen in *. destruct (_ <? 0) eqn:E; [lia|]. destruct (i <? 0) eqn:E'; [lia|].
  rewrite <- upd_app_r. f_equal. lia.
Qed.
Lemma zupd_app_l A (a b : list A) i v : 0 <= i < zlen a -> zupd (a ++ b) i v = zupd a i v ++ b.
Proof. intros H. unfold zupd, zlen in *. destruct (i <? 0) eqn:E; [lia|]. apply upd_app_l. lia. Qed.
Lemma zlen_concat (p : list (list Z)) M : Forall (fun r => zlen r = M) p -> zlen (concat p) = M * zlen p.
Proof.
  induction 1 as [|r p R F IH]; [cbn; unfold zlen; cbn; lia|]. cbn [concat]. rewrite zlen_app, IH, R. unfold zlen. cbn [length]. lia.
Qed.
Lemma znth_concat (p : list (list Z)) M : Forall (fun r => zlen r = M) p -> forall i r j x, znth p i = Some r -> znth r j = Some x ->
  znth (concat p) (M * i + j) = Some x.
Proof.
  induction 1 as [|r0 p R F IH]; intros i r j x P X.
  - destruct (znth_some_range _ _ _ _ P) as [A B]. unfold zlen in B. cbn in B. lia.
  - pose proof (znth_some_range _ _ _ _ P) as RI. pose proof (znth_some_range _ _ _ _ X) as RJ. cbn [concat].
    destruct (Z.eq_dec i 0) as [->|N].
    + assert (r0 = r) by (unfold znth in P; cbn in P; congruence). subst r0. rewrite znth_app_l by lia. replace (M * 0 + j) with j by lia. exact X.
    + assert (P' : znth p (i - 1) = Some r).
      { unfold znth in *. destruct (i <? 0) eqn:E1; [lia|]. destruct (i - 1 <? 0) eqn:E2; [lia|].
        replace (Z.to_nat i) with (S (Z.to_nat (i - 1))) in P by lia. exact P. }
      assert (0 <= M) by (rewrite <- R; apply zlen_nonneg).
      replace (M * i + j) with (zlen r0 + (M * (i - 1) + j)) by (rewrite R; ring). rewrite znth_app_r by nia. apply (IH _ r); auto.
Qed.

(** ** The code on bytes does what the code on arrays does *)
Section Sim.
Context (own len M N : Z) (p : list (list Z)) (rest : list Z).
Context (M0 : 0 <= M) (N0 : 0 <= N) (FIT : 16 + 4 * M + 4 * (M * N) + 4 * N < 2 ^ 32).
Context (PN : zlen p = N) (PM : Forall (fun r => zlen r = M) p) (PU : Forall (fun r => Forall is_u32 r) p).

Definition W (l a : list Z) : list Z := own :: M :: N :: len :: l ++ concat p ++ a ++ rest.
Definition D (l a : list Z) : list Z := bytes_of (W l a).
Definition fine (l a : list Z) : Prop := zlen l = M /\ zlen a = N /\ Forall int32 l /\ Forall int32 a.
Definition v : view := view_of M N.
Definition wst_of (s : store) : Z * Z := match s with WLookup c x => (lk v c, x) | WActive i x => (ac v i, x) end.

Lemma view_fields : v_M v = M /\ v_N v = N /\ v_look v = 4 * 4 /\ v_act v = 4 * (4 + M + M * N) /\
  forall i, 0 <= i < N -> znth (v_rows v) i = Some (4 * (4 + M + M * i)).
Proof.
  unfold v, view_of, map_offs. replace (u32 (12 + 4 * M)) with (12 + 4 * M) by (unfold u32, two32; rewrite Z.mod_small; nia).
  rewrite row_offs_nowrap by (unfold two32; nia). cbn [v_M v_N v_look v_act v_rows]. unfold base, lookup_off.
  split; [auto|]. split; [auto|]. split; [lia|]. split; [rewrite Z2Nat.id by lia; lia|].
  intros i I. rewrite map_map. rewrite znth_map. unfold znth. destruct (i <? 0) eqn:E; [lia|].
  rewrite (nth_error_nth' _ 0%nat) by (rewrite seq_length; lia). rewrite seq_nth by lia. cbn [option_map Nat.add]. f_equal. rewrite Z2Nat.id by lia. lia.
Qed.
Lemma lk_eq i : lk v i = 4 * (4 + i). Proof. unfold lk. destruct view_fields as (_ & _ & -> & _). lia. Qed.
Lemma ac_eq i : ac v i = 4 * (4 + M + M * N + i). Proof. unfold ac. destruct view_fields as (_ & _ & _ & -> & _). lia. Qed.

Lemma W_tail l a i : 0 <= i -> znth (W l a) (4 + i) = znth (l ++ concat p ++ a ++ rest) i.
Proof. intros H. change (W l a) with ([own; M; N; len] ++ (l ++ concat p ++ a ++ rest)). apply (znth_app_r _ [own; M; N; len]). exact H. Qed.
Lemma Wu_tail l a i x : 0 <= i -> zupd (W l a) (4 + i) x = own :: M :: N :: len :: zupd (l ++ concat p ++ a ++ rest) i x.
Proof. intros H. change (W l a) with ([own; M; N; len] ++ (l ++ concat p ++ a ++ rest)). apply (zupd_app_r _ [own; M; N; len]). exact H. Qed.
Lemma W_look l a i x : zlen l = M -> znth l i = Some x -> znth (W l a) (4 + i) = Some x.
Proof. intros L Z. pose proof (znth_some_range _ _ _ _ Z). rewrite W_tail by lia. rewrite znth_app_l by lia. exact Z. Qed.
Lemma W_row l a i r j x : zlen l = M -> znth p i = Some r -> znth r j = Some x -> znth (W l a) (4 + M + M * i + j) = Some x.
Proof.
  intros L P X. pose proof (znth_some_range _ _ _ _ P). pose proof (znth_some_range _ _ _ _ X).
  replace (4 + M + M * i + j) with (4 + (zlen l + (M * i + j))) by lia. rewrite W_tail, znth_app_r by nia.
  assert (R : zlen r = M) by (rewrite Forall_forall in PM; apply PM; eapply znth_In; eauto).
  rewrite znth_app_l by (rewrite (zlen_concat p M PM); nia). apply (znth_concat p M PM i r); auto.
Qed.
Lemma W_act l a i x : zlen l = M -> znth a i = Some x -> znth (W l a) (4 + M + M * N + i) = Some x.
Proof.
  intros L Z. pose proof (znth_some_range _ _ _ _ Z). replace (4 + M + M * N + i) with (4 + (zlen l + (zlen (concat p) + i)))
    by (rewrite (zlen_concat p M PM); lia). assert (0 <= zlen (concat p)) by apply zlen_nonneg.
  rewrite W_tail, !znth_app_r, znth_app_l by lia. exact Z.
Qed.
Lemma Wu_look l a i x y : zlen l = M -> znth l i = Some x -> zupd (W l a) (4 + i) y = W (zupd l i y) a.
Proof. intros L Z. pose proof (znth_some_range _ _ _ _ Z). rewrite Wu_tail, zupd_app_l by lia. reflexivity. Qed.
Lemma Wu_act l a i x y : zlen l = M -> znth a i = Some x -> zupd (W l a) (4 + M + M * N + i) y = W l (zupd a i y).
Proof.
  intros L Z. pose proof (znth_some_range _ _ _ _ Z). replace (4 + M + M * N + i) with (4 + (zlen l + (zlen (concat p) + i)))
    by (rewrite (zlen_concat p M PM); lia). assert (0 <= zlen (concat p)) by apply zlen_nonneg.
  rewrite Wu_tail, !zupd_app_r, zupd_app_l by lia. reflexivity.
Qed.

(** Accesses *)
Lemma get_look l a i x : fine l a -> aget l i = Ok x -> lds (D l a) (lk v i) = Ok x.
Proof.
  intros (L & A & IL & IA) G. apply aget_ok in G. rewrite lk_eq. apply lds_word; [apply W_look; auto|].
  rewrite Forall_forall in IL. apply IL. eapply znth_In; eauto.
Qed.
Lemma get_act l a i x : fine l a -> aget a i = Ok x -> lds (D l a) (ac v i) = Ok x.
Proof.
  intros (L & A & IL & IA) G. apply aget_ok in G. rewrite ac_eq. apply lds_word; [apply W_act; auto|].
  rewrite Forall_forall in IA. apply IA. eapply znth_In; eauto.
Qed.
Lemma get_row l a i r : fine l a -> aget p i = Ok r -> exists o, aget (v_rows v) i = Ok o /\ forall j x, aget r j = Ok x -> ld (D l a) (o + 4 * j) = Ok x.
Proof.
  intros (L & A & IL & IA) G. apply aget_ok in G. pose proof (znth_some_range _ _ _ _ G) as R.
  destruct view_fields as (_ & _ & _ & _ & VR). exists (4 * (4 + M + M * i)). split; [apply aget_ok; apply VR; lia|].
  intros j x X. apply aget_ok in X. replace (4 * (4 + M + M * i) + 4 * j) with (4 * (4 + M + M * i + j)) by lia.
  unfold D. rewrite (ld_word _ _ x) by (apply (W_row l a i r); auto). f_equal. unfold u32.
  assert (is_u32 x). { rewrite Forall_forall in PU. specialize (PU r (znth_In _ _ _ _ G)). rewrite Forall_forall in PU. apply PU. eapply znth_In; eauto. }
  apply Z.mod_small. unfold is_u32, UINT_MAX in *. unfold two32. lia.
Qed.
Lemma int_upd l i x : Forall int32 l -> int32 x -> Forall int32 (zupd l i x).
Proof.
  intros F X. unfold zupd. destruct (i <? 0); auto. revert i. assert (G : forall n, Forall int32 (upd l n x)).
  { induction F as [|y l Y F IH]; intros [|n]; cbn; auto. }
  intros i. apply G.
Qed.
Lemma set_look l a i x l' : fine l a -> int32 x -> aset l i x = Ok l' -> st (D l a) (lk v i) x = Ok (D l' a) /\ fine l' a.
Proof.
  intros (L & A & IL & IA) X G. unfold aset in G. destruct (znth l i) as [y|] eqn:Z; [|discriminate]. inversion G; subst l'.
  rewrite lk_eq. unfold D. rewrite (st_word _ _ y) by (apply W_look; auto). rewrite (Wu_look l a i y x) by auto. split; auto.
  split; [rewrite zlen_zupd; auto|]. split; auto. split; auto. apply int_upd; auto.
Qed.
Lemma set_act l a i x a' : fine l a -> int32 x -> aset a i x = Ok a' -> st (D l a) (ac v i) x = Ok (D l a') /\ fine l a'.
Proof.
  intros (L & A & IL & IA) X G. unfold aset in G. destruct (znth a i) as [y|] eqn:Z; [|discriminate]. inversion G; subst a'.
  rewrite ac_eq. unfold D. rewrite (st_word _ _ y) by (apply W_act; auto). rewrite (Wu_act l a i y x) by auto. split; auto.
  split; auto. split; [rewrite zlen_zupd; auto|]. split; auto. apply int_upd; auto.
Qed.
Lemma int_m1 : int32 (-1). Proof. unfold int32. lia. Qed.
Lemma int_idx i : 0 <= i < N -> int32 i. Proof. unfold int32. nia. Qed.

(** populate *)
Lemma sim_clear a : forall k i l tr l' tr', fine l a -> clear_loop k i l tr = Ok (l', tr') ->
  wclear v k i (D l a) (map wst_of tr) = Ok (D l' a, map wst_of tr') /\ fine l' a.
Proof.
  induction k as [|k IH]; intros i l tr l' tr' F C; cbn [clear_loop wclear] in *; [inversion C; subst; auto|].
  destruct (aset l i (-1)) as [l1| | |] eqn:S; try discriminate. cbn [obind] in C.
  destruct (set_look l a i (-1) l1 F int_m1 S) as (-> & F1). cbn [obind]. apply (IH _ _ _ _ _ F1) in C. exact C.
Qed.
Lemma sim_count l a : fine l a -> forall k i n r, count_active dyn_active a k i n = Ok r -> wcount v (D l a) k i n = Ok r.
Proof.
  intros F. induction k as [|k IH]; intros i n r C; cbn [count_active wcount] in *; [exact C|].
  destruct (aget a i) as [x| | |] eqn:G; try discriminate. rewrite (get_act l a i x F G). cbn [obind] in *. apply IH. exact C.
Qed.
Lemma sim_find l a i r o : fine l a -> aget p i = Ok r -> (forall j x, aget r j = Ok x -> ld (D l a) (o + 4 * j) = Ok x) ->
  forall fuel nx q, find_slot fuel l r nx = Ok q -> wfind v fuel (D l a) o nx = Ok q.
Proof.
  intros F P O. induction fuel as [|fuel IH]; intros nx q H; cbn [find_slot wfind] in *;
    (destruct (aget r nx) as [c| | |] eqn:G; try discriminate); rewrite (O nx c G); cbn [obind] in *;
    (destruct (aget l c) as [x| | |] eqn:G2; try discriminate); rewrite (get_look l a c x F G2); cbn [obind] in *;
    destruct (x >=? 0); auto; discriminate.
Qed.
Definition lift (a : list Z) (s : pst) : wst := mkWst (D (p_lookup s) a) (p_next s) (p_n s) (map wst_of (p_trace s)).
Lemma sim_round a : forall k i s s' b, 0 <= i -> i + Z.of_nat k <= N -> fine (p_lookup s) a -> round dyn_active M p a k i s = Ok (s', b) ->
  wround v k i (lift a s) = Ok (lift a s', b) /\ fine (p_lookup s') a.
Proof.
  induction k as [|k IH]; intros i s s' b I0 IN F R; cbn [round wround] in *; [inversion R; subst; auto|].
  destruct (aget a i) as [x| | |] eqn:GA; try discriminate. cbn [lift w_d w_next w_n w_tr]. rewrite (get_act _ a i x F GA). cbn [obind] in *.
  unfold dyn_active in R at 1. destruct (negb (0 <=? x)); [apply (IH (i + 1)); auto; lia|].
  destruct (aget p i) as [row| | |] eqn:GP; try discriminate. destruct (get_row _ a i row F GP) as (o & GO & GR). rewrite GO. cbn [obind] in *.
  destruct (aget (p_next s) i) as [nx| | |] eqn:GN; try discriminate. cbn [obind] in *.
  destruct (find_slot (length row) (p_lookup s) row nx) as [[c nx']| | |] eqn:FS; try discriminate. cbn [obind] in *.
  assert (LR : Z.to_nat (v_M v) = length row).
  { destruct view_fields as (-> & _). apply aget_ok in GP. rewrite Forall_forall in PM. specialize (PM _ (znth_In _ _ _ _ GP)). unfold zlen in PM. lia. }
  rewrite LR, (sim_find _ a i row o F GP GR _ _ _ FS). cbn [obind] in *.
  destruct (aset (p_lookup s) c i) as [l'| | |] eqn:SL; try discriminate. destruct (set_look _ a c i l' F ltac:(apply int_idx; lia) SL) as (-> & F').
  cbn [obind] in *. destruct (aset (p_next s) i (u32 (nx' + 1))) as [nx2| | |]; try discriminate. cbn [obind w_n p_n] in *.
  destruct view_fields as (VM & _). rewrite VM in *.
  destruct (u32 (p_n s + 1) =? M); [inversion R; subst; auto|]. apply (IH (i + 1)) in R; auto; lia.
Qed.
Lemma sim_rounds a : forall fuel s s', fine (p_lookup s) a -> rounds dyn_active M p a (Z.to_nat N) fuel s = Ok s' ->
  wrounds v fuel (lift a s) = Ok (lift a s') /\ fine (p_lookup s') a.
Proof.
  induction fuel as [|fuel IH]; intros s s' F R; cbn [rounds wrounds] in *; [discriminate|].
  destruct view_fields as (_ & VN & _). rewrite VN.
  destruct (round dyn_active M p a (Z.to_nat N) 0 s) as [[s1 b]| | |] eqn:RR; try discriminate. cbn [obind] in R.
  assert (KN : 0 + Z.of_nat (Z.to_nat N) <= N) by lia.
  destruct (sim_round a _ _ _ _ _ (Z.le_refl 0) KN F RR) as (-> & F1). cbn [obind]. destruct b; [inversion R; subst; auto|]. auto.
Qed.
Lemma sim_populate l a l' tr : fine l a -> populate_gen dyn_active M N l p a = Ok (l', tr) ->
  wpopulate v (D l a) = Ok (D l' a, map wst_of tr) /\ fine l' a.
Proof.
  intros F P. unfold populate_gen, wpopulate in *. destruct view_fields as (VM & VN & _). rewrite VM, VN.
  destruct (clear_loop (Z.to_nat M) 0 l []) as [[l0 tr0]| | |] eqn:C; try discriminate. cbn [obind] in P.
  destruct (sim_clear a _ _ _ [] _ _ F C) as (C' & F0). cbn [map] in C'. rewrite C'. cbn [obind].
  destruct (count_active dyn_active a (Z.to_nat N) 0 0) as [n| | |] eqn:K; try discriminate. rewrite (sim_count l0 a F0 _ _ _ _ K). cbn [obind] in *.
  destruct (n =? 0). { inversion P; subst. rewrite map_rev. auto. }
  destruct (rounds dyn_active M p a (Z.to_nat N) (S (Z.to_nat M)) _) as [s| | |] eqn:R; try discriminate. cbn [obind] in P. inversion P; subst.
  destruct (sim_rounds a _ (mkPst l0 (repeat 0 (Z.to_nat N)) 0 tr0) s F0 R) as (R' & F1).
  unfold lift in R' at 1. cbn [p_lookup p_next p_n p_trace] in R'. rewrite R'. cbn [obind lift w_d w_tr]. rewrite map_rev. auto.
Qed.
End Sim.
