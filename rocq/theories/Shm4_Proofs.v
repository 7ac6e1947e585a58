(** The init command with its writes, the readers of the file, and show. *)
From Coq Require Import String Znumtheory Permutation.
From Verif Require Import Base Lists Cstr_Model Rangeset_Model Rangeset_Spec Rangeset2_Proofs Match_Proofs Fwmark_Proofs Prime_Model Prime_Proofs Maglev_Model Config_Model
  Maglev_Spec Config_Spec MaglevInit_Proofs Config_Proofs MaglevThms_Proofs Shm_Model Shm_Spec Shm_Proofs Shm2_Proofs Shm3_Proofs.

(** *** write_full *)
Lemma write_result : forall rs buf out file all, write_full rs buf out = Ok (file, all) ->
  (all = true -> file = out ++ buf) /\ (all = false -> In Failed rs /\ exists pre suf, buf = pre ++ suf /\ file = out ++ pre).
Proof.
  induction rs as [|r rs IH]; intros buf out file all H; (destruct buf as [|b buf]; [cbn in H; inversion H; subst; rewrite app_nil_r; split; [auto|discriminate]|]); cbn [write_full] in H;
    [discriminate|]. destruct r as [n| |].
  - set (k := Z.to_nat n) in *. apply IH in H. destruct H as (H1 & H2). split.
    + intros A. rewrite (H1 A), <- app_assoc, firstn_skipn. reflexivity.
    + intros A. destruct (H2 A) as (IN & pre & suf & E1 & ->). split; [right; exact IN|]. exists (firstn k (b :: buf) ++ pre), suf.
      rewrite <- !app_assoc. split; auto. rewrite <- E1. rewrite firstn_skipn. reflexivity.
  - apply IH in H. destruct H as (H1 & H2). split; auto. intros A. destruct (H2 A) as (IN & ?). split; [right; exact IN|auto].
  - inversion H; subst. split; [discriminate|]. intros _. split; [left; reflexivity|]. exists [], (b :: buf). rewrite app_nil_r. auto.
Qed.
Lemma write_ok : forall rs buf out, writes rs (zlen buf) -> write_full rs buf out = Ok (out ++ buf, true).
Proof.
  induction rs as [|r rs IH]; intros buf out W; (destruct buf as [|b buf]; [rewrite app_nil_r; reflexivity|]).
  - destruct W as [W|W]; [unfold zlen in W; cbn [length] in W; lia|contradiction].
  - destruct W as [W|W]; [unfold zlen in W; cbn [length] in W; lia|]. cbn [write_full]. destruct r as [n| |]; [|apply IH; exact W|contradiction].
    destruct W as (N0 & W). set (l := b :: buf) in *. rewrite IH; [rewrite <- app_assoc, firstn_skipn; reflexivity|].
    destruct (Z_le_gt_dec n (zlen l)) as [C|C].
    + replace (zlen (skipn (Z.to_nat n) l)) with (zlen l - n); [exact W|]. unfold zlen in *. rewrite skipn_length. lia.
    + assert (Q : skipn (Z.to_nat n) l = []) by (apply skipn_all2; unfold zlen in C; lia). rewrite Q. clear. destruct rs; left; cbn; lia.
Qed.
Lemma write_no_ub : forall rs buf out, write_full rs buf out <> UB /\ write_full rs buf out <> Die.
Proof. induction rs as [|r rs IH]; intros [|b buf] out; cbn [write_full]; try (split; discriminate). destruct r; auto; split; discriminate. Qed.

(** *** The init command *)
Lemma init_eqs m n rand s : init_args m n rand -> cmdInit m n rand = Ok s ->
  (if m <? 3 then Ok 3 else primeBelow m) = Ok (mM s) /\ (n >? mM s) = false /\ prime (mM s) /\ 3 <= mM s <= 994009 /\ 0 <= mN s /\ mN s = n /\
  magDataDyn_len (mM s) n = Ok (len_formula (mM s) n) /\ len_formula (mM s) n = 24 + 4 * (mM s * n) + 4 * (mM s + n) /\
  24 + 4 * (mM s * n) + 4 * (mM s + n) < 2 ^ 32 /\ magDataDyn_init (mM s) n (len_formula (mM s) n) rand = Ok s.
Proof.
  intros IA H. pose proof IA as (Hm & Hn & Hr). destruct (cmdInit_wf m n rand s Hn Hm H) as (W1 & W2 & W3 & W4 & W5 & W6 & W7 & W8 & W9).
  assert (He : (if m <? 3 then Ok 3 else primeBelow m) = Ok (mM s)).
  { destruct (m <? 3) eqn:E; [rewrite Z.max_r in W9 by lia; rewrite <- W9; vm_compute; reflexivity|rewrite Z.max_l in W9 by lia; exact W9]. }
  unfold cmdInit in H. rewrite He in H. cbn [obind] in H. destruct (n >? mM s) eqn:E; [discriminate|].
  assert (Hpp : primeBelow (mM s) = Ok (mM s)) by (apply primeBelow_prime; [assumption|lia]).
  assert (Hmax : (if mM s <? 3 then 3 else mM s) = mM s) by (destruct (mM s <? 3) eqn:E3; lia).
  assert (HL : magDataDyn_len (mM s) n = Ok (len_formula (mM s) n)) by (unfold magDataDyn_len; rewrite Hmax, Hpp; reflexivity).
  rewrite HL in H. cbn [obind] in H. pose proof H as H0.
  unfold magDataDyn_init in H. rewrite Hmax, Hpp in H. cbn [obind] in H. rewrite HL in H. cbn [obind] in H. rewrite Z.ltb_irrefl in H.
  destruct (layout_fits (mM s) n (len_formula (mM s) n)) eqn:El; [|discriminate]. apply layout_fits_iff in El; [|lia|lia].
  assert (FIT : 24 + 4 * (mM s * n) + 4 * (mM s + n) < 2 ^ 32) by (unfold two32 in El; lia).
  repeat (split; [assumption || lia|]). split; [|split; assumption].
  unfold len_formula, u32, two32. rewrite (Z.mod_small (mM s * n)) by nia. rewrite (Z.mod_small (3 + _)) by nia. rewrite (Z.mod_small (mM s + n)) by nia. rewrite Z.mod_small by nia. lia.
Qed.

Lemma s32_small x : 0 <= x < 2147483648 -> s32 x = x.
Proof. intros H. unfold s32, u32, two32. rewrite Z.mod_small by lia. destruct (x <? 2147483648) eqn:E; lia. Qed.

Lemma created rs data : 0 < zlen data < 2 ^ 31 ->
  match createSharedData rs data with
  | Ok (file, c) => (c = 0 -> file = data) /\ (c <> 0 -> In Failed rs)
  | Fuel => ~ writes rs (zlen data)
  | _ => False
  end /\ (writes rs (zlen data) -> createSharedData rs data = Ok (data, 0)).
Proof.
  intros L. unfold createSharedData.
  assert (G : (u64 (s32 (zlen data)) =? zlen data) = true).
  { rewrite s32_small by lia. unfold u64, two64. rewrite Z.mod_small by lia. apply Z.eqb_refl. }
  split.
  - destruct (write_full rs data []) as [[file all]| | |] eqn:E; cbn [obind].
    + apply write_result in E. destruct E as (E1 & E2). destruct all.
      * rewrite G. rewrite E1 by reflexivity. split; [auto|congruence].
      * assert (u64 (-1) =? zlen data = false) as -> by (apply Z.eqb_neq; unfold u64, two64; rewrite (Z.mod_eq (-1)) by lia; change (-1 / 18446744073709551616) with (-1); lia).
        split; [discriminate|]. intros _. apply E2. reflexivity.
    + exfalso. apply (proj2 (write_no_ub rs data [])). exact E.
    + exfalso. apply (proj1 (write_no_ub rs data [])). exact E.
    + intros W. apply (write_ok rs data []) in W. congruence.
  - intros W. rewrite (write_ok rs data [] W). cbn [obind app]. rewrite G. reflexivity.
Qed.

Lemma init_file own m n garbage rand s : init_args m n rand -> cmdInit m n rand = Ok s -> int32 own -> file_size s <= 4 + zlen garbage -> file_size s < 2 ^ 31 ->
  exists f, holds f own s /\ sized own s /\ forall rs,
    match winitCmd own m n garbage rs rand with
    | Ok (g, true) => g = f
    | Ok (g, false) => In Failed rs
    | Fuel => ~ writes rs (file_size s)
    | _ => False
    end /\ (writes rs (file_size s) -> winitCmd own m n garbage rs rand = Ok (f, true)).
Proof.
  intros IA H OI GL SM. destruct (init_eqs m n rand s IA H) as (E1 & E2 & PR & MB & NB & EN & EL & LF & FIT & IN). unfold file_size in *.
  set (gb := firstn (Z.to_nat (len_formula (mM s) n)) garbage).
  assert (GB : zlen gb = len_formula (mM s) n) by (unfold gb, zlen in *; rewrite firstn_length; nia).
  rewrite EN in *. destruct (winit_words own (mM s) n rand gb PR MB ltac:(lia) FIT LF GB OI s IN) as (f & WI & HF & SZ).
  exists f. split; [exact HF|]. split; [exact SZ|]. intros rs. unfold winitCmd. rewrite E1. cbn [obind]. rewrite E2. unfold initShm. rewrite EL. cbn [obind]. fold gb.
  assert (DL : zlen (le4 own ++ gb) = 28 + 4 * (mM s * n) + 4 * (mM s + n)) by (rewrite zlen_app, GB; change (zlen (le4 own)) with 4; lia).
  rewrite <- DL. destruct (created rs (le4 own ++ gb)) as (C1 & C2); [rewrite DL; split; [nia|exact SM]|]. split.
  - destruct (createSharedData rs (le4 own ++ gb)) as [[file c]| | |]; cbn [obind]; try contradiction; auto.
    destruct (c =? 0) eqn:EC; cbn [negb].
    + destruct C1 as (C1 & _). rewrite C1 by lia. rewrite WI. cbn [obind]. reflexivity.
    + apply C1. lia.
  - intros W. rewrite (C2 W). cbn [obind negb Z.eqb]. rewrite WI. reflexivity.
Qed.

Lemma init_too_large own m n garbage rand s rs : init_args m n rand -> cmdInit m n rand = Ok s -> file_size s <= 4 + zlen garbage -> 2 ^ 31 <= file_size s < 2 ^ 32 ->
  (forall f, winitCmd own m n garbage rs rand <> Ok (f, true)) /\
  (writes rs (file_size s) -> exists f, winitCmd own m n garbage rs rand = Ok (f, false) /\ zlen f = file_size s).
Proof.
  intros IA H GL SM. destruct (init_eqs m n rand s IA H) as (E1 & E2 & PR & MB & NB & EN & EL & LF & FIT & IN). unfold file_size in *.
  set (gb := firstn (Z.to_nat (len_formula (mM s) n)) garbage).
  assert (GB : zlen gb = len_formula (mM s) n) by (unfold gb, zlen in *; rewrite firstn_length; nia). rewrite EN in *.
  unfold winitCmd. rewrite E1. cbn [obind]. rewrite E2. unfold initShm. rewrite EL. cbn [obind]. fold gb.
  assert (DL : zlen (le4 own ++ gb) = 28 + 4 * (mM s * n) + 4 * (mM s + n)) by (rewrite zlen_app, GB; change (zlen (le4 own)) with 4; lia).
  rewrite <- DL in *. set (data := le4 own ++ gb) in *. unfold createSharedData.
  assert (SL : s32 (zlen data) = zlen data - 4294967296).
  { unfold s32, u32, two32. rewrite Z.mod_small by lia. destruct (zlen data <? 2147483648) eqn:E; lia. }
  assert (SU : (u64 (s32 (zlen data)) =? zlen data) = false).
  { rewrite SL. apply Z.eqb_neq. unfold u64, two64. rewrite <- (Z_mod_plus_full _ 1). rewrite Z.mod_small by lia. lia. }
  assert (S1 : (u64 (-1) =? zlen data) = false) by (apply Z.eqb_neq; unfold u64, two64; rewrite (Z.mod_eq (-1)) by lia; change (-1 / 18446744073709551616) with (-1); lia).
  split.
  - intros f. destruct (write_full rs data []) as [[file all]| | |]; cbn [obind]; try discriminate. destruct all.
    + rewrite SU. cbn [obind]. destruct (s32 (zlen data) =? 0) eqn:E; [lia|]. discriminate.
    + rewrite S1. cbn. discriminate.
  - intros W. rewrite (write_ok rs data [] W). cbn [obind app]. rewrite SU. cbn [obind]. destruct (s32 (zlen data) =? 0) eqn:E; [lia|]. cbn [negb]. eauto.
Qed.

(** *** Readers and crashes *)
Lemma ints_int c : cmd_ints c -> cmd_int c.
Proof. destruct c; cbn; unfold int32; intros H; auto; try tauto; lia. Qed.

Lemma file_creach own m n rand s0 : init_args m n rand -> cmdInit m n rand = Ok s0 -> mM s0 <= 65536 ->
  forall f1 f2, fcreach f1 f2 -> forall s1, creach s0 s1 -> holds f1 own s1 -> sized own s1 ->
  exists s2, creach s0 s2 /\ creach s1 s2 /\ holds f2 own s2 /\ sized own s2.
Proof.
  intros IA H0 HM. destruct (init_facts _ _ _ _ IA H0) as (W1 & W2 & W3 & _ & W5 & W6 & W7 & _).
  assert (R0 : readable s0) by (apply synced_readable; auto).
  induction 1 as [f|f1 f2 c f' tr g F IH I WR IN]; intros s1 C HF SZ; [exists s1; split; [exact C|]; split; [constructor|auto]|].
  destruct (IH s1 C HF SZ) as (s2 & C2 & C12 & HF2 & SZ2).
  destruct (creach_inv _ _ C2 R0 W3) as (R2 & S2 & EM & EN).
  assert (GR : good_rows s2) by (eapply good_rows_eq; [eapply init_good_rows; eauto|exact EM|apply creach_perm; exact C2]).
  destruct (run_cmd_total s2 c (rd_wf _ R2) GR ltac:(lia) (ints_int c I)) as [((s3 & str3) & RC)|RC].
  - destruct (holds_run f2 own s2 c s3 str3 HF2 SZ2 I RC) as (f3 & wtr & WR' & _ & _ & FA). rewrite WR in WR'. injection WR' as <- <-.
    assert (G : exists s, In s (states s2 str3) /\ holds g own s /\ sized own s).
    { clear - FA IN. revert FA IN. generalize (wstates f2 tr) (states s2 str3). induction 1 as [|o x ol xl (g1 & -> & Q1 & Q2) FA IH]; [intros []|intros [E|IN]].
      - inversion E; subst. exists x. cbn. auto.
      - destruct (IH IN) as (s & ? & ?). exists s. cbn. auto. }
    destruct G as (s & IS & Q1 & Q2). exists s. split; [eapply cr_step; eauto|]. split; [eapply cr_step; eauto|]. auto.
  - rewrite (holds_die f2 own s2 c HF2 SZ2 RC) in WR. discriminate.
Qed.

Lemma file_readers own m n rand s0 f0 f1 f2 hash : init_args m n rand -> cmdInit m n rand = Ok s0 -> mM s0 <= 65536 ->
  holds f0 own s0 -> sized own s0 -> fcreach f0 f1 -> fcreach f1 f2 -> 0 <= hash ->
  exists s1 s2 vw x, holds f1 own s1 /\ holds f2 own s2 /\ mM s1 = mM s0 /\ mN s1 = mN s0 /\
    map_view f0 = Ok vw /\ map_view f1 = Ok vw /\ wread2 vw f1 f2 hash = Ok x /\ (x < 0 \/ In x (mactive s2)).
Proof.
  intros IA H0 HM HF SZ C1 C2 HH. destruct (init_facts _ _ _ _ IA H0) as (W1 & W2 & W3 & _ & W5 & W6 & W7 & _).
  assert (R0 : readable s0) by (apply synced_readable; auto).
  destruct (file_creach own m n rand s0 IA H0 HM f0 f1 C1 s0 (cr_refl _) HF SZ) as (s1 & D1 & _ & HF1 & SZ1).
  destruct (file_creach own m n rand s0 IA H0 HM f1 f2 C2 s1 D1 HF1 SZ1) as (s2 & D2 & D12 & HF2 & SZ2).
  destruct (creach_inv _ _ D1 R0 W3) as (R1 & S1 & EM1 & EN1). destruct (creach_inv _ _ D2 R0 W3) as (R2 & S2 & EM2 & EN2).
  destruct (reader_crash m n rand s0 s1 s2 hash IA H0 D1 D12 HH) as (x & RD & X).
  exists s1, s2, (v (mM s0) (mN s0)), x. split; [auto|]. split; [auto|]. split; [auto|]. split; [auto|].
  split; [apply (holds_view f0 own s0); auto|]. split; [rewrite <- EM1, <- EN1; apply (holds_view f1 own s1); auto|].
  split; [|exact X]. rewrite <- EM1, <- EN1. apply (holds_read f1 f2 own s1 s2); auto; congruence.
Qed.

(** Histories *)
Lemma file_hist own m n rand s0 f0 cs : init_args m n rand -> cmdInit m n rand = Ok s0 -> mM s0 <= 65536 -> holds f0 own s0 -> sized own s0 -> Forall cmd_ints cs ->
  exists f s, wrun_hist f0 cs = Ok f /\ reached m n rand cs s /\ holds f own s /\ sized own s.
Proof.
  intros IA H0 HM HF SZ I. destruct (commands_total m n rand cs s0 IA H0 HM) as (s & RH). { revert I. apply Forall_impl. exact ints_int. }
  destruct (holds_hist own cs f0 s0 s HF SZ I RH) as (f & WH & HF' & SZ'). exists f, s. split; [exact WH|]. split; [exists s0; auto|auto].
Qed.
