(** Commands, init and readers on the bytes of the shared memory. *)
From Coq Require Import String.
From Verif Require Import Base Lists Cstr_Model Rangeset_Model Rangeset_Spec Match_Proofs Prime_Model Maglev_Model Config_Model Maglev_Spec MaglevInit_Proofs
  Shm_Model Shm_Spec Shm_Proofs.

Section Sim.
Context (own len M N : Z) (p : list (list Z)) (rest : list Z).
Context (M0 : 0 <= M) (N0 : 0 <= N) (FIT : 16 + 4 * M + 4 * (M * N) + 4 * N < 2 ^ 32).
Context (PN : zlen p = N) (PM : Forall (fun r => zlen r = M) p) (PU : Forall (fun r => Forall is_u32 r) p).
Notation D := (D own len M N p rest).
Notation fine := (fine M N).
Notation v := (v M N).
Notation wst_of := (wst_of M N).

Lemma sim_scan l a fw : fine l a -> forall k i fe q, scan a fw k i fe = Ok q -> wscan v (D l a) fw k i fe = Ok q.
Proof.
  intros F. induction k as [|k IH]; intros i fe q S; cbn [scan wscan] in *; [exact S|].
  destruct (aget a i) as [x| | |] eqn:G; try discriminate. rewrite (get_act own len M N p rest M0 N0 FIT PN PM l a i x F G). cbn [obind] in *.
  destruct (x =? fw); [exact S|]. apply IH. exact S.
Qed.
Lemma sim_scan_eq l a fw : fine l a -> forall k i q, scan_eq a fw k i = Ok q -> wscan_eq v (D l a) fw k i = Ok q.
Proof.
  intros F. induction k as [|k IH]; intros i q S; cbn [scan_eq wscan_eq] in *; [exact S|].
  destruct (aget a i) as [x| | |] eqn:G; try discriminate. rewrite (get_act own len M N p rest M0 N0 FIT PN PM l a i x F G). cbn [obind] in *.
  destruct (x =? fw); [exact S|]. apply IH. exact S.
Qed.
Lemma sim_activate l : forall fws a ch a' ch' tr, fine l a -> Forall int32 fws -> activate_args N a fws ch = Ok (a', ch', tr) ->
  wactivate v (D l a) fws ch = Ok (D l a', ch', map wst_of tr) /\ fine l a'.
Proof.
  destruct (view_fields M N M0 N0 FIT) as (_ & VN & _).
  induction fws as [|fw fws IH]; intros a ch a' ch' tr F I A; cbn [activate_args wactivate] in *; [inversion A; subst; auto|].
  pose proof (Forall_inv I) as I1. pose proof (Forall_inv_tail I) as I2. rewrite VN.
  destruct (scan a fw (Z.to_nat N) 0 (-1)) as [[found fe]| | |] eqn:S; try discriminate. rewrite (sim_scan l a fw F _ _ _ _ S). cbn [obind] in *.
  destruct (negb found && (0 <=? fe)); [|apply IH; auto].
  destruct (aset a fe fw) as [a1| | |] eqn:SA; try discriminate. destruct (set_act own len M N p rest M0 N0 FIT PN PM l a fe fw a1 F I1 SA) as (-> & F1).
  cbn [obind] in *. destruct (activate_args N a1 fws true) as [[[a2 c2] t2]| | |] eqn:R; try discriminate. cbn [obind] in A. injection A as <- <- <-.
  destruct (IH _ _ _ _ _ F1 I2 R) as (-> & F2). cbn [obind]. auto.
Qed.
Lemma sim_deactivate l : forall fws a ch a' ch' tr, fine l a -> deactivate_args N a fws ch = Ok (a', ch', tr) ->
  wdeactivate v (D l a) fws ch = Ok (D l a', ch', map wst_of tr) /\ fine l a'.
Proof.
  destruct (view_fields M N M0 N0 FIT) as (_ & VN & _).
  induction fws as [|fw fws IH]; intros a ch a' ch' tr F A; cbn [deactivate_args wdeactivate] in *; [inversion A; subst; auto|].
  rewrite VN. destruct (scan_eq a fw (Z.to_nat N) 0) as [i| | |] eqn:S; try discriminate. rewrite (sim_scan_eq l a fw F _ _ _ S). cbn [obind] in *.
  destruct (0 <=? i); [|apply IH; auto].
  destruct (aset a i (-1)) as [a1| | |] eqn:SA; try discriminate. destruct (set_act own len M N p rest M0 N0 FIT PN PM l a i (-1) a1 F int_m1 SA) as (-> & F1).
  cbn [obind] in *. destruct (deactivate_args N a1 fws true) as [[[a2 c2] t2]| | |] eqn:R; try discriminate. cbn [obind] in A. injection A as <- <- <-.
  destruct (IH _ _ _ _ _ F1 R) as (-> & F2). cbn [obind]. auto.
Qed.
Lemma sim_finish l a ch tr m' tr' : fine l a -> finish (mkMag M N l p a) ch tr = Ok (m', tr') ->
  exists l', m' = mkMag M N l' p a /\ wfinish v (D l a) ch (map wst_of tr) = Ok (D l' a, map wst_of tr') /\ fine l' a.
Proof.
  intros F H. unfold finish, wfinish, magDataDyn_populate in *. cbn [mM mN mlookup mperm mactive] in H.
  destruct ch; [|inversion H; subst; exists l; auto].
  destruct (populate_gen dyn_active M N l p a) as [[l' t]| | |] eqn:P; try discriminate. cbn [obind] in H. injection H as <- <-.
  destruct (sim_populate own len M N p rest M0 N0 FIT PN PM PU l a l' t F P) as (-> & F'). exists l'. cbn [obind]. rewrite map_app. auto.
Qed.
Lemma map_D l a : map_view (D l a) = Ok v.
Proof.
  unfold map_view, Shm_Proofs.D. change base with (4 * 1). change (4 * 1 + 4) with (4 * 2).
  rewrite (ld_word _ 1 M) by reflexivity. rewrite (ld_word _ 2 N) by reflexivity. cbn [obind]. unfold u32, two32. rewrite !Z.mod_small by nia. reflexivity.
Qed.
Lemma sim_run l a c m' tr : fine l a -> cmd_ints c -> run_cmd (mkMag M N l p a) c = Ok (m', tr) ->
  exists l' a', m' = mkMag M N l' p a' /\ wrun (D l a) c = Ok (D l' a', map wst_of tr) /\ fine l' a'.
Proof.
  intros F I R. unfold wrun. rewrite map_D. cbn [obind]. destruct (view_fields M N M0 N0 FIT) as (_ & VN & _).
  unfold run_cmd, with_active in R. cbn [mM mN mlookup mperm mactive] in R. destruct c as [fws|i fw|fws|i]; cbn [cmd_ints] in I.
  - destruct (activate_args N a fws false) as [[[a1 c1] t1]| | |] eqn:A; try discriminate. destruct (sim_activate l _ _ _ _ _ _ F I A) as (-> & F1).
    cbn [obind] in *. destruct (sim_finish _ _ _ _ _ _ F1 R) as (l' & -> & -> & F'). eauto.
  - rewrite VN. destruct (u32 i >=? N); [discriminate|]. destruct (aget a i) as [x| | |] eqn:G; try discriminate.
    rewrite (get_act own len M N p rest M0 N0 FIT PN PM l a i x F G). cbn [obind] in *.
    destruct (x =? fw); [inversion R; subst; exists l, a; auto|].
    destruct (aset a i fw) as [a1| | |] eqn:SA; try discriminate. destruct (set_act own len M N p rest M0 N0 FIT PN PM l a i fw a1 F (proj2 I) SA) as (-> & F1).
    cbn [obind] in *. destruct (sim_finish _ _ _ _ _ _ F1 R) as (l' & -> & E & F'). change (map wst_of [WActive i fw]) with [(ac v i, fw)] in E. rewrite E. eauto.
  - destruct (deactivate_args N a fws false) as [[[a1 c1] t1]| | |] eqn:A; try discriminate. destruct (sim_deactivate l _ _ _ _ _ _ F A) as (-> & F1).
    cbn [obind] in *. destruct (sim_finish _ _ _ _ _ _ F1 R) as (l' & -> & -> & F'). eauto.
  - rewrite VN. destruct (u32 i >=? N); [discriminate|]. destruct (aget a i) as [x| | |] eqn:G; try discriminate.
    rewrite (get_act own len M N p rest M0 N0 FIT PN PM l a i x F G). cbn [obind] in *.
    destruct (0 <=? x); [|inversion R; subst; exists l, a; auto].
    destruct (aset a i (-1)) as [a1| | |] eqn:SA; try discriminate. destruct (set_act own len M N p rest M0 N0 FIT PN PM l a i (-1) a1 F int_m1 SA) as (-> & F1).
    cbn [obind] in *. destruct (sim_finish _ _ _ _ _ _ F1 R) as (l' & -> & E & F'). change (map wst_of [WActive i (-1)]) with [(ac v i, -1)] in E. rewrite E. eauto.
Qed.

(** The states in between *)
Lemma sim_store l a s : fine l a -> (match s with WLookup c x => exists y, znth l c = Some y /\ int32 x | WActive i x => exists y, znth a i = Some y /\ int32 x end) ->
  exists l' a', apply_store (mkMag M N l p a) s = mkMag M N l' p a' /\ st (D l a) (fst (wst_of s)) (snd (wst_of s)) = Ok (D l' a') /\ fine l' a'.
Proof.
  intros F H. destruct s as [c x|i x]; destruct H as (y & Z & X); cbn [apply_store Shm_Proofs.wst_of fst snd mM mN mlookup mperm mactive].
  - assert (S : aset l c x = Ok (zupd l c x)) by (unfold aset; rewrite Z; reflexivity).
    destruct (set_look own len M N p rest M0 N0 FIT l a c x _ F X S). eauto.
  - assert (S : aset a i x = Ok (zupd a i x)) by (unfold aset; rewrite Z; reflexivity).
    destruct (set_act own len M N p rest M0 N0 FIT PN PM l a i x _ F X S). eauto.
Qed.
(** Every store of a run is inside the arrays and of an int *)
Definition store_in (s : store) : Prop :=
  match s with WLookup c x => 0 <= c < M /\ int32 x | WActive i x => 0 <= i < N /\ int32 x end.
Lemma sim_states : forall tr l a, fine l a -> Forall store_in tr ->
  Forall2 (fun o m => exists l' a', o = Ok (D l' a') /\ m = mkMag M N l' p a' /\ fine l' a') (wstates (D l a) (map wst_of tr)) (states (mkMag M N l p a) tr).
Proof.
  induction tr as [|s tr IH]; intros l a F I; [constructor; [eauto 6|constructor]|].
  pose proof (Forall_inv I) as I1. pose proof (Forall_inv_tail I) as I2.
  destruct (sim_store l a s F) as (l' & a' & E1 & E2 & F').
  { pose proof F as (L & A & _). destruct s as [c x|i x]; destruct I1 as (R & X).
    - destruct (znth_in_range _ l c) as (y & Y); [lia|]. eauto.
    - destruct (znth_in_range _ a i) as (y & Y); [lia|]. eauto. }
  cbn [map wstates states]. destruct (wst_of s) as [o x] eqn:EW. cbn [fst snd] in E2. rewrite E2, E1. constructor; [eauto 6|]. apply IH; auto.
Qed.

(** The stores of a command are of that kind *)
Lemma clear_in : forall k i l tr l' tr', zlen l = M -> Forall store_in tr -> clear_loop k i l tr = Ok (l', tr') -> Forall store_in tr' /\ zlen l' = M.
Proof.
  induction k as [|k IH]; intros i l tr l' tr' L F C; cbn [clear_loop] in C; [injection C as <- <-; auto|].
  destruct (aset l i (-1)) as [l1| | |] eqn:S; try discriminate. cbn [obind] in C. unfold aset in S. destruct (znth l i) as [y|] eqn:Z; [|discriminate].
  pose proof (znth_some_range _ _ _ _ Z). injection S as <-. apply IH in C; auto; [rewrite zlen_zupd; auto|]. constructor; auto. split; [lia|apply int_m1].
Qed.
Lemma round_in a : forall k i s s' b, 0 <= i -> i + Z.of_nat k <= N -> zlen (p_lookup s) = M -> Forall store_in (p_trace s) ->
  round dyn_active M p a k i s = Ok (s', b) -> Forall store_in (p_trace s') /\ zlen (p_lookup s') = M.
Proof.
  induction k as [|k IH]; intros i s s' b I0 IN L F R; cbn [round] in R; [injection R as <- <-; auto|].
  destruct (aget a i) as [x| | |]; try discriminate. cbn [obind] in R. destruct (negb (dyn_active x)); [apply (IH (i + 1)) in R; auto; lia|].
  destruct (aget p i) as [row| | |]; try discriminate. cbn [obind] in R. destruct (aget (p_next s) i) as [nx| | |]; try discriminate. cbn [obind] in R.
  destruct (find_slot _ _ _ _) as [[c nx']| | |]; try discriminate. cbn [obind] in R.
  destruct (aset (p_lookup s) c i) as [l'| | |] eqn:S; try discriminate. cbn [obind] in R. unfold aset in S. destruct (znth (p_lookup s) c) as [y|] eqn:Z; [|discriminate].
  pose proof (znth_some_range _ _ _ _ Z). injection S as <-. destruct (aset (p_next s) i _) as [nx2| | |]; try discriminate. cbn [obind p_n] in R.
  assert (G1 : Forall store_in (WLookup c i :: p_trace s)). { constructor; auto. split; [lia|]. apply (int_idx M N M0 N0 FIT). lia. }
  assert (G2 : zlen (zupd (p_lookup s) c i) = M) by (rewrite zlen_zupd; auto).
  destruct (u32 (p_n s + 1) =? M); [injection R as <- <-; auto|]. apply (IH (i + 1)) in R; auto; lia.
Qed.
Lemma rounds_in a : forall fuel s s', zlen (p_lookup s) = M -> Forall store_in (p_trace s) ->
  rounds dyn_active M p a (Z.to_nat N) fuel s = Ok s' -> Forall store_in (p_trace s').
Proof.
  induction fuel as [|fuel IH]; intros s s' L F R; cbn [rounds] in R; [discriminate|].
  destruct (round dyn_active M p a (Z.to_nat N) 0 s) as [[s1 b]| | |] eqn:RR; try discriminate. cbn [obind] in R.
  assert (KN : 0 + Z.of_nat (Z.to_nat N) <= N) by lia.
  destruct (round_in a _ _ _ _ _ (Z.le_refl 0) KN L F RR) as (F1 & L1). destruct b; [injection R as <-; auto|]. eapply IH; eauto.
Qed.
Lemma populate_in l a l' tr : zlen l = M -> populate_gen dyn_active M N l p a = Ok (l', tr) -> Forall store_in tr.
Proof.
  intros L P. unfold populate_gen in P. destruct (clear_loop (Z.to_nat M) 0 l []) as [[l0 tr0]| | |] eqn:C; try discriminate. cbn [obind] in P.
  destruct (clear_in _ _ _ [] _ _ L (Forall_nil _) C) as (C1 & C2). destruct (count_active dyn_active a (Z.to_nat N) 0 0) as [n| | |]; try discriminate. cbn [obind] in P.
  destruct (n =? 0). { injection P as <- <-. apply Forall_rev. exact C1. }
  destruct (rounds dyn_active M p a (Z.to_nat N) (S (Z.to_nat M)) _) as [s| | |] eqn:R; try discriminate. cbn [obind] in P. injection P as <- <-.
  apply Forall_rev. exact (rounds_in a _ (mkPst l0 (repeat 0 (Z.to_nat N)) 0 tr0) s C2 C1 R).
Qed.
Lemma finish_in l a ch tr m' tr' : zlen l = M -> Forall store_in tr -> finish (mkMag M N l p a) ch tr = Ok (m', tr') -> Forall store_in tr'.
Proof.
  intros L F H. unfold finish, magDataDyn_populate in H. cbn [mM mN mlookup mperm mactive] in H. destruct ch; [|injection H as <- <-; exact F].
  destruct (populate_gen dyn_active M N l p a) as [[l' t]| | |] eqn:P; try discriminate. cbn [obind] in H. injection H as <- <-.
  apply Forall_app. split; auto. eapply populate_in; eauto.
Qed.
Lemma activate_in : forall fws a ch a' ch' tr, zlen a = N -> Forall int32 fws -> activate_args N a fws ch = Ok (a', ch', tr) -> Forall store_in tr.
Proof.
  induction fws as [|fw fws IH]; intros a ch a' ch' tr L I A; cbn [activate_args] in A; [injection A as <- <- <-; constructor|].
  pose proof (Forall_inv I) as I1. pose proof (Forall_inv_tail I) as I2.
  destruct (scan a fw (Z.to_nat N) 0 (-1)) as [[found fe]| | |]; try discriminate. cbn [obind] in A. destruct (negb found && (0 <=? fe)); [|eapply IH; eauto].
  destruct (aset a fe fw) as [a1| | |] eqn:S; try discriminate. cbn [obind] in A. unfold aset in S. destruct (znth a fe) as [y|] eqn:Z; [|discriminate].
  pose proof (znth_some_range _ _ _ _ Z). injection S as <-. destruct (activate_args N _ fws true) as [[[a2 c2] t2]| | |] eqn:R; try discriminate. cbn [obind] in A.
  injection A as <- <- <-. constructor; [split; [lia|auto]|]. eapply IH; [|exact I2|exact R]. rewrite zlen_zupd. exact L.
Qed.
Lemma deactivate_in : forall fws a ch a' ch' tr, zlen a = N -> deactivate_args N a fws ch = Ok (a', ch', tr) -> Forall store_in tr.
Proof.
  induction fws as [|fw fws IH]; intros a ch a' ch' tr L A; cbn [deactivate_args] in A; [injection A as <- <- <-; constructor|].
  destruct (scan_eq a fw (Z.to_nat N) 0) as [i| | |]; try discriminate. cbn [obind] in A. destruct (0 <=? i); [|eapply IH; eauto].
  destruct (aset a i (-1)) as [a1| | |] eqn:S; try discriminate. cbn [obind] in A. unfold aset in S. destruct (znth a i) as [y|] eqn:Z; [|discriminate].
  pose proof (znth_some_range _ _ _ _ Z). injection S as <-. destruct (deactivate_args N _ fws true) as [[[a2 c2] t2]| | |] eqn:R; try discriminate. cbn [obind] in A.
  injection A as <- <- <-. constructor; [split; [lia|apply int_m1]|]. eapply IH; [|exact R]. rewrite zlen_zupd. exact L.
Qed.
Lemma run_in l a c m' tr : fine l a -> cmd_ints c -> run_cmd (mkMag M N l p a) c = Ok (m', tr) -> Forall store_in tr.
Proof.
  intros (L & A & _) I R. unfold run_cmd, with_active in R. cbn [mM mN mlookup mperm mactive] in R. destruct c as [fws|i fw|fws|i]; cbn [cmd_ints] in I.
  - destruct (activate_args N a fws false) as [[[a1 c1] t1]| | |] eqn:AA; try discriminate. cbn [obind] in R.
    eapply finish_in; [exact L| |exact R]. eapply activate_in; eauto.
  - destruct (u32 i >=? N); [discriminate|]. destruct (aget a i) as [x| | |] eqn:G; try discriminate. cbn [obind] in R.
    apply aget_ok in G. pose proof (znth_some_range _ _ _ _ G). destruct (x =? fw); [injection R as <- <-; constructor|].
    destruct (aset a i fw) as [a1| | |]; try discriminate. cbn [obind] in R. eapply finish_in; [exact L| |exact R]. constructor; [split; [lia|tauto]|constructor].
  - destruct (deactivate_args N a fws false) as [[[a1 c1] t1]| | |] eqn:AA; try discriminate. cbn [obind] in R.
    eapply finish_in; [exact L| |exact R]. eapply deactivate_in; eauto.
  - destruct (u32 i >=? N); [discriminate|]. destruct (aget a i) as [x| | |] eqn:G; try discriminate. cbn [obind] in R.
    apply aget_ok in G. pose proof (znth_some_range _ _ _ _ G). destruct (0 <=? x); [|injection R as <- <-; constructor].
    destruct (aset a i (-1)) as [a1| | |]; try discriminate. cbn [obind] in R. eapply finish_in; [exact L| |exact R]. constructor; [split; [lia|apply int_m1]|constructor].
Qed.
Lemma sim_read l1 a1 l2 a2 hash x : fine l1 a1 -> fine l2 a2 -> read2 (mkMag M N l1 p a1) (mkMag M N l2 p a2) hash = Ok x ->
  wread2 v (D l1 a1) (D l2 a2) hash = Ok x.
Proof.
  intros F1 F2 R. unfold read2, wread2 in *. cbn [mM mlookup mactive] in R. destruct (view_fields M N M0 N0 FIT) as (VM & _). rewrite VM.
  destruct (aget l1 (hash mod M)) as [y| | |] eqn:G; try discriminate. rewrite (get_look own len M N p rest M0 N0 FIT _ _ _ _ F1 G). cbn [obind] in *.
  destruct (y >=? 0); [|exact R]. apply (get_act own len M N p rest M0 N0 FIT PN PM); auto.
Qed.
End Sim.
