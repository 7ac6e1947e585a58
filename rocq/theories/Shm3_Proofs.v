(** The file that holds a table: commands, readers, init and show. *)
From Coq Require Import String Znumtheory.
From Verif Require Import Base Lists Cstr_Model Rangeset_Model Rangeset_Spec Match_Proofs Prime_Model Prime_Proofs Maglev_Model Config_Model Maglev_Spec
  Config_Spec MaglevInit_Proofs Config_Proofs Shm_Model Shm_Spec Shm_Proofs Shm2_Proofs.

Definition mD (own len : Z) (rest : list Z) (s : mag) : list Z := D own len (mM s) (mN s) (mperm s) rest (mlookup s) (mactive s).
Definition shaped (s : mag) : Prop := zlen (mlookup s) = mM s /\ zlen (mperm s) = mN s /\ Forall (fun r => zlen r = mM s) (mperm s) /\ zlen (mactive s) = mN s.
Lemma holds_iff f own s : holds f own s <-> exists len rest, f = mD own len rest s /\ shaped s.
Proof. unfold holds, mD, D, W, shaped. reflexivity. Qed.
Lemma fine_of own s : shaped s -> sized own s -> fine (mM s) (mN s) (mlookup s) (mactive s).
Proof. unfold shaped, sized, fine. tauto. Qed.
Lemma eta_mag s : s = mkMag (mM s) (mN s) (mlookup s) (mperm s) (mactive s). Proof. destruct s; reflexivity. Qed.

Lemma holds_run f own s c s' tr : holds f own s -> sized own s -> cmd_ints c -> run_cmd s c = Ok (s', tr) ->
  exists f' wtr, wrun f c = Ok (f', wtr) /\ holds f' own s' /\ sized own s' /\
    Forall2 (fun o m => exists g, o = Ok g /\ holds g own m /\ sized own m) (wstates f wtr) (states s tr).
Proof.
  intros H Z I R. apply (proj1 (holds_iff _ _ _)) in H. destruct H as (len & rest & -> & S). pose proof (fine_of own s S Z) as F.
  destruct Z as (Z1 & Z2 & Z3 & Z4 & Z5 & Z6 & Z7). destruct S as (S1 & S2 & S3 & S4). rewrite (eta_mag s) in R.
  destruct (sim_run own len (mM s) (mN s) (mperm s) rest Z5 Z6 Z7 S2 S3 Z4 _ _ c s' tr F I R) as (l' & a' & E & WR & F').
  pose proof (run_in (mM s) (mN s) (mperm s) Z5 Z6 Z7 _ _ c s' tr F I R) as IN.
  pose proof (sim_states own len (mM s) (mN s) (mperm s) rest Z5 Z6 Z7 S2 S3 tr _ _ F IN) as SS. rewrite <- (eta_mag s) in SS.
  assert (G : forall l1 a1, fine (mM s) (mN s) l1 a1 ->
    holds (D own len (mM s) (mN s) (mperm s) rest l1 a1) own (mkMag (mM s) (mN s) l1 (mperm s) a1) /\ sized own (mkMag (mM s) (mN s) l1 (mperm s) a1)).
  { intros l1 a1 (G1 & G2 & G3 & G4). split.
    - apply holds_iff. exists len, rest. split; [reflexivity|]. unfold shaped. cbn [mM mN mlookup mperm mactive]. auto.
    - unfold sized. cbn [mM mN mlookup mperm mactive]. auto 10. }
  exists (D own len (mM s) (mN s) (mperm s) rest l' a'), (map (wst_of (mM s) (mN s)) tr). split; [exact WR|]. rewrite E. split; [apply G; exact F'|]. split; [apply G; exact F'|].
  revert SS. unfold mD, D, W. generalize (wstates (bytes_of (own :: mM s :: mN s :: len :: mlookup s ++ concat (mperm s) ++ mactive s ++ rest)) (map (wst_of (mM s) (mN s)) tr)) (states s tr).
  induction 1 as [|o m ol ml (l1 & a1 & -> & -> & F1) SS IH]; constructor; auto. eexists. split; [reflexivity|]. apply G. exact F1.
Qed.

Lemma holds_view f own s : holds f own s -> sized own s -> map_view f = Ok (v (mM s) (mN s)).
Proof.
  intros H Z. apply (proj1 (holds_iff _ _ _)) in H. destruct H as (len & rest & -> & S). destruct Z as (Z1 & Z2 & Z3 & Z4 & Z5 & Z6 & Z7). apply map_D; auto.
Qed.

(** A command that dies in the one model dies in the other *)
Lemma run_die s c : run_cmd s c = Die -> match c with ActivateIdx i _ | DeactivateIdx i => u32 i >= mN s | _ => False end.
Proof.
  assert (FN : forall m ch tr, finish m ch tr <> Die).
  { intros m ch tr. unfold finish, magDataDyn_populate. destruct ch; [|discriminate]. intros E.
    destruct (populate_gen dyn_active (mM m) (mN m) (mlookup m) (mperm m) (mactive m)) as [[? ?]| | |] eqn:P; try discriminate. revert P. apply populate_not_die. }
  destruct c as [fws|i fw|fws|i]; cbn [run_cmd]; intros R.
  - destruct (activate_args (mN s) (mactive s) fws false) as [[[? ?] ?]| | |] eqn:A; try discriminate; cbn [obind] in R; [apply FN in R; auto|].
    revert A. apply activate_args_not_die.
  - destruct (u32 i >=? mN s) eqn:E; [lia|]. exfalso. destruct (aget (mactive s) i) as [x| | |] eqn:G; try discriminate; [|revert G; apply aget_not_die].
    cbn [obind] in R. destruct (x =? fw); [discriminate|]. destruct (aset (mactive s) i fw) as [a'| | |] eqn:G2; try discriminate; [|revert G2; apply aset_not_die].
    cbn [obind] in R. apply FN in R. auto.
  - destruct (deactivate_args (mN s) (mactive s) fws false) as [[[? ?] ?]| | |] eqn:A; try discriminate; cbn [obind] in R; [apply FN in R; auto|].
    revert A. apply deactivate_args_not_die.
  - destruct (u32 i >=? mN s) eqn:E; [lia|]. exfalso. destruct (aget (mactive s) i) as [x| | |] eqn:G; try discriminate; [|revert G; apply aget_not_die].
    cbn [obind] in R. destruct (0 <=? x); [|discriminate]. destruct (aset (mactive s) i (-1)) as [a'| | |] eqn:G2; try discriminate; [|revert G2; apply aset_not_die].
    cbn [obind] in R. apply FN in R. auto.
Qed.
Lemma holds_die f own s c : holds f own s -> sized own s -> run_cmd s c = Die -> wrun f c = Die.
Proof.
  intros H Z R. apply run_die in R. unfold wrun. rewrite (holds_view f own s H Z). cbn [obind].
  destruct Z as (_ & _ & _ & _ & Z5 & Z6 & Z7). destruct (view_fields (mM s) (mN s) Z5 Z6 Z7) as (_ & VN & _). rewrite VN.
  destruct c as [fws|i fw|fws|i]; try contradiction; destruct (u32 i >=? mN s) eqn:E; auto; lia.
Qed.

Lemma holds_hist own : forall cs f s s', holds f own s -> sized own s -> Forall cmd_ints cs -> run_hist s cs = Ok s' ->
  exists f', wrun_hist f cs = Ok f' /\ holds f' own s' /\ sized own s'.
Proof.
  induction cs as [|c cs IH]; intros f s s' H Z I R; cbn [run_hist wrun_hist] in *; [inversion R; subst; eauto|].
  pose proof (Forall_inv I) as I1. pose proof (Forall_inv_tail I) as I2.
  destruct (run_cmd s c) as [[s1 tr]| | |] eqn:RC; try discriminate.
  - destruct (holds_run f own s c s1 tr H Z I1 RC) as (f1 & wtr & -> & H1 & Z1 & _). eauto.
  - rewrite (holds_die f own s c H Z RC). eauto.
Qed.

Lemma holds_read f1 f2 own s1 s2 hash x : holds f1 own s1 -> holds f2 own s2 -> sized own s1 -> sized own s2 ->
  mM s1 = mM s2 -> mN s1 = mN s2 -> read2 s1 s2 hash = Ok x -> wread2 (v (mM s1) (mN s1)) f1 f2 hash = Ok x.
Proof.
  intros H1 H2 Z1 Z2 EM EN R. apply (proj1 (holds_iff _ _ _)) in H1. destruct H1 as (len1 & rest1 & -> & S1). apply (proj1 (holds_iff _ _ _)) in H2. destruct H2 as (len2 & rest2 & -> & S2).
  pose proof (fine_of own s1 S1 Z1) as F1. pose proof (fine_of own s2 S2 Z2) as F2.
  destruct Z1 as (_ & _ & _ & _ & A5 & A6 & A7). destruct Z2 as (_ & _ & _ & _ & B5 & B6 & B7).
  destruct S1 as (_ & C2 & C3 & _). destruct S2 as (_ & D2 & D3 & _).
  unfold read2, wread2 in *. destruct (view_fields (mM s1) (mN s1) A5 A6 A7) as (-> & _).
  destruct (aget (mlookup s1) (hash mod mM s1)) as [y| | |] eqn:G; try discriminate. unfold mD at 1.
  rewrite (get_look own len1 (mM s1) (mN s1) (mperm s1) rest1 A5 A6 A7 _ _ _ _ F1 G). cbn [obind] in *. destruct (y >=? 0); [|exact R].
  rewrite EM, EN. exact (get_act own len2 (mM s2) (mN s2) (mperm s2) rest2 B5 B6 B7 D2 D3 _ _ _ _ F2 R).
Qed.

(** *** Init *)
Lemma st_at A x B y o : o = 4 * zlen A -> st (bytes_of (A ++ x :: B)) o y = Ok (bytes_of (A ++ y :: B)).
Proof.
  intros ->. assert (Z : znth (A ++ x :: B) (zlen A) = Some x).
  { replace (zlen A) with (zlen A + 0) by lia. rewrite znth_app_r by lia. reflexivity. }
  rewrite (st_word _ _ x y Z). f_equal. f_equal. replace (zlen A) with (zlen A + 0) by lia. rewrite zupd_app_r by lia. reflexivity.
Qed.
Lemma zlen_snoc A (l : list A) x : zlen (l ++ [x]) = zlen l + 1.
Proof. unfold zlen. rewrite app_length. cbn. lia. Qed.
Lemma wrow_words M off skip row B : forall suf A j, row + 4 * j = 4 * zlen A -> 0 <= j ->
  wrow M off skip row (length suf) j (bytes_of (A ++ suf ++ B)) =
  Ok (bytes_of (A ++ map (fun n => row_entry M off skip (Z.of_nat n)) (seq (Z.to_nat j) (length suf)) ++ B)).
Proof.
  induction suf as [|x suf IH]; intros A j E J; cbn [length wrow seq map]; [reflexivity|].
  change (A ++ (x :: suf) ++ B) with (A ++ x :: (suf ++ B)). rewrite (st_at A x (suf ++ B)) by exact E. cbn [obind].
  specialize (IH (A ++ [row_entry M off skip j]) (j + 1)). rewrite <- !app_assoc in IH. cbn [app] in IH. rewrite IH by (rewrite ?zlen_snoc; lia).
  replace (Z.to_nat (j + 1)) with (S (Z.to_nat j)) by lia. rewrite Z2Nat.id by lia. reflexivity.
Qed.
Lemma make_row_words M r1 r2 row A B : 0 <= M -> row = 4 * zlen A ->
  wrow M (row_offset M r1) (row_skip M r2) row (Z.to_nat M) 0 (bytes_of (A ++ repeat 0 (Z.to_nat M) ++ B)) = Ok (bytes_of (A ++ make_row M r1 r2 ++ B)).
Proof.
  intros M0 E. pose proof (wrow_words M (row_offset M r1) (row_skip M r2) row B (repeat 0 (Z.to_nat M)) A 0) as W. rewrite repeat_length in W. apply W; lia.
Qed.
Lemma make_row_len M r1 r2 : 0 <= M -> zlen (make_row M r1 r2) = M.
Proof. intros H. unfold make_row. rewrite zlen_map. unfold zlen. rewrite seq_length. lia. Qed.

Section Rows.
Context (M N : Z) (rand : nat -> Z) (H R : list Z).
Context (M0 : 0 <= M) (N0 : 0 <= N) (FIT : 16 + 4 * M + 4 * (M * N) + 4 * N < 2 ^ 32) (HL : zlen H = 4 + M).
Lemma wrows_words : forall k i P, Z.of_nat (i + k) = N -> zlen P = M * Z.of_nat i ->
  wrows (v M N) rand k i (bytes_of (H ++ P ++ repeat 0 (k * Z.to_nat M) ++ repeat (-1) i ++ repeat 0 k ++ R)) =
  Ok (bytes_of (H ++ P ++ concat (map (fun i => make_row M (rand (2 * i)%nat) (rand (2 * i + 1)%nat)) (seq i k)) ++ repeat (-1) (i + k) ++ R)).
Proof.
  destruct (view_fields M N M0 N0 FIT) as (VM & VN & _ & _ & VR).
  induction k as [|k IH]; intros i P IK PL; cbn [wrows].
  - cbn [Nat.mul repeat seq map concat app]. rewrite Nat.add_0_r. reflexivity.
  - rewrite (proj2 (aget_ok _ _ _ _) (VR (Z.of_nat i) ltac:(lia))). cbn [obind]. rewrite VM.
    replace (S k * Z.to_nat M)%nat with (Z.to_nat M + k * Z.to_nat M)%nat by lia. rewrite (repeat_app 0 (Z.to_nat M)), <- !app_assoc.
    pose proof (make_row_words M (rand (2 * i)%nat) (rand (2 * i + 1)%nat) (4 * (4 + M + M * Z.of_nat i)) (H ++ P)
      (repeat 0 (k * Z.to_nat M) ++ repeat (-1) i ++ repeat 0 (S k) ++ R) M0) as MR. rewrite <- !app_assoc in MR. rewrite MR by (rewrite zlen_app; lia). cbn [obind].
    pose proof (st_at (H ++ P ++ make_row M (rand (2 * i)%nat) (rand (2 * i + 1)%nat) ++ repeat 0 (k * Z.to_nat M) ++ repeat (-1) i) 0 (repeat 0 k ++ R) (-1) (ac (v M N) (Z.of_nat i))) as SA.
    rewrite <- !app_assoc in SA. cbn [app repeat] in SA |- *. rewrite SA.
    2:{ rewrite (ac_eq M N M0 N0 FIT), !zlen_app, HL, PL, make_row_len by exact M0. rewrite !zlen_repeat.
        replace (Z.of_nat (k * Z.to_nat M)) with (Z.of_nat k * M) by (rewrite Nat2Z.inj_mul, Z2Nat.id; lia). nia. }
    cbn [obind]. specialize (IH (S i) (P ++ make_row M (rand (2 * i)%nat) (rand (2 * i + 1)%nat))). rewrite <- !app_assoc in IH.
    replace (repeat (-1) i ++ -1 :: repeat 0 k ++ R) with (repeat (-1) (S i) ++ repeat 0 k ++ R).
    2:{ replace (S i) with (i + 1)%nat by lia. rewrite repeat_app, <- app_assoc. reflexivity. }
    rewrite IH; [|lia|rewrite zlen_app, make_row_len by exact M0; lia].
    cbn [seq map concat]. rewrite <- !app_assoc. replace (S i + k)%nat with (i + S k)%nat by lia. reflexivity.
Qed.
End Rows.

Lemma bytes_zero n : bytes_of (repeat 0 n) = repeat 0 (4 * n).
Proof. induction n as [|n IH]; [reflexivity|]. replace (4 * S n)%nat with (4 + 4 * n)%nat by lia. rewrite repeat_app, <- IH. reflexivity. Qed.
Lemma le4_len x : length (le4 x) = 4%nat. Proof. reflexivity. Qed.

Lemma winit_words own M N rand garbage : prime M -> 3 <= M <= 994009 -> 0 <= N ->
  24 + 4 * (M * N) + 4 * (M + N) < 2 ^ 32 -> len_formula M N = 24 + 4 * (M * N) + 4 * (M + N) -> zlen garbage = len_formula M N -> int32 own ->
  forall s, magDataDyn_init M N (len_formula M N) rand = Ok s ->
  exists f, winit M N (len_formula M N) rand (le4 own ++ garbage) = Ok f /\ holds f own s /\ sized own s.
Proof.
  intros PR MB NB FIT LF GL OI s IN.
  assert (Hmax : (if M <? 3 then 3 else M) = M) by (destruct (M <? 3) eqn:E3; lia).
  assert (Hpp : primeBelow M = Ok M) by (apply primeBelow_prime; [assumption|lia]).
  unfold magDataDyn_init in IN. unfold winit. rewrite Hmax, Hpp in *. cbn [obind] in *. unfold magDataDyn_len in *. rewrite Hmax, Hpp in *. cbn [obind] in *.
  rewrite Z.ltb_irrefl in *. destruct (layout_fits M N (len_formula M N)); [|discriminate]. cbn [negb] in IN.
  unfold wzero. rewrite zlen_app, GL. change (zlen (le4 own)) with 4. unfold base at 1. rewrite Z.ltb_irrefl. cbn [obind].
  set (K := (Z.to_nat M + (Z.to_nat N * Z.to_nat M + (Z.to_nat N + 3)))%nat).
  assert (E0 : firstn (Z.to_nat base) (le4 own ++ garbage) ++ repeat 0 (Z.to_nat (len_formula M N)) ++ skipn (Z.to_nat (base + len_formula M N)) (le4 own ++ garbage)
    = bytes_of ([own] ++ 0 :: 0 :: 0 :: repeat 0 K)).
  { change (Z.to_nat base) with 4%nat. rewrite firstn_app, le4_len. cbn [Nat.sub firstn]. rewrite app_nil_r. change (firstn 4 (le4 own)) with (le4 own).
    rewrite skipn_all2 by (rewrite app_length, le4_len; unfold zlen in GL; unfold base; lia). rewrite app_nil_r.
    rewrite bytes_app. change (bytes_of [own]) with (le4 own). f_equal. change (0 :: 0 :: 0 :: repeat 0 K) with (repeat 0 (3 + K)). rewrite bytes_zero. f_equal.
    rewrite LF. unfold K. nia. }
  rewrite E0. rewrite st_at by reflexivity. cbn [obind]. change ([own] ++ M :: 0 :: 0 :: repeat 0 K) with ([own; M] ++ 0 :: 0 :: repeat 0 K).
  rewrite st_at by reflexivity. cbn [obind]. change ([own; M] ++ N :: 0 :: repeat 0 K) with ([own; M; N] ++ 0 :: repeat 0 K).
  rewrite st_at by reflexivity. cbn [obind]. set (len := len_formula M N) in *.
  assert (E1 : [own; M; N] ++ len :: repeat 0 K = ([own; M; N; len] ++ repeat 0 (Z.to_nat M)) ++ [] ++ repeat 0 (Z.to_nat N * Z.to_nat M) ++ repeat (-1) 0 ++ repeat 0 (Z.to_nat N) ++ repeat 0 3).
  { unfold K. rewrite !repeat_app. cbn [app repeat]. rewrite <- ?app_assoc. reflexivity. }
  assert (M1 : 0 <= M) by lia. assert (FIT' : 16 + 4 * M + 4 * (M * N) + 4 * N < 2 ^ 32) by lia.
  assert (MV : map_view (bytes_of ([own; M; N] ++ len :: repeat 0 K)) = Ok (v M N)).
  { unfold map_view. cbn [app]. change base with (4 * 1). change (4 * 1 + 4) with (4 * 2).
    rewrite (ld_word _ 1 M) by reflexivity. rewrite (ld_word _ 2 N) by reflexivity. cbn [obind]. unfold u32, two32. rewrite !Z.mod_small by nia. reflexivity. }
  rewrite MV. cbn [obind]. destruct (view_fields M N M1 NB FIT') as (_ & VN & _). rewrite VN. rewrite E1.
  rewrite (wrows_words M N rand ([own; M; N; len] ++ repeat 0 (Z.to_nat M)) (repeat 0 3) M1 NB FIT').
  2:{ rewrite zlen_app, zlen_repeat. change (zlen [own; M; N; len]) with 4. lia. }
  2:{ lia. } 2:{ cbn. lia. }
  cbn [obind]. change (map (fun i => make_row M (rand (2 * i)%nat) (rand (2 * i + 1)%nat)) (seq 0 (Z.to_nat N))) with (make_rows M N rand).
  change (bytes_of (([own; M; N; len] ++ repeat 0 (Z.to_nat M)) ++ [] ++ concat (make_rows M N rand) ++ repeat (-1) (0 + Z.to_nat N) ++ repeat 0 3))
    with (D own len M N (make_rows M N rand) (repeat 0 3) (repeat 0 (Z.to_nat M)) (repeat (-1) (Z.to_nat N))).
  unfold magDataDyn_populate in IN. cbn [mM mN mlookup mperm mactive] in IN.
  destruct (populate_gen dyn_active M N (repeat 0 (Z.to_nat M)) (make_rows M N rand) (repeat (-1) (Z.to_nat N))) as [[l tr]| | |] eqn:P; try discriminate. cbn [obind fst] in IN. injection IN as <-.
  assert (PN : zlen (make_rows M N rand) = N) by (apply make_rows_zlen; lia).
  assert (PM : Forall (fun r => zlen r = M) (make_rows M N rand)).
  { unfold make_rows. apply Forall_forall. intros r Hr. apply in_map_iff in Hr. destruct Hr as (i & <- & _). apply make_row_len. lia. }
  assert (PU : Forall (fun r => Forall is_u32 r) (make_rows M N rand)).
  { unfold make_rows. apply Forall_forall. intros r Hr. apply in_map_iff in Hr. destruct Hr as (i & <- & _). unfold make_row. apply Forall_forall.
    intros x Hx. apply in_map_iff in Hx. destruct Hx as (j & <- & _). unfold row_entry, is_u32, UINT_MAX. set (q := u32 _). pose proof (Z.mod_pos_bound q M). lia. }
  assert (F : fine M N (repeat 0 (Z.to_nat M)) (repeat (-1) (Z.to_nat N))).
  { split; [rewrite zlen_repeat; lia|]. split; [rewrite zlen_repeat; lia|]. split; apply Forall_forall; intros x X; apply repeat_spec in X; subst; unfold int32; lia. }
  destruct (sim_populate own len M N (make_rows M N rand) (repeat 0 3) M1 NB FIT' PN PM PU _ _ l tr F P) as (-> & F'). cbn [obind fst].
  eexists. split; [reflexivity|]. destruct F' as (F1 & F2 & F3 & F4). split.
  - apply holds_iff. exists len, (repeat 0 3). split; [reflexivity|]. unfold shaped. cbn [mM mN mlookup mperm mactive]. auto.
  - unfold sized. cbn [mM mN mlookup mperm mactive]. auto 10.
Qed.
