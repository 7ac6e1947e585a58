(** Load-balancers of a tier with tables that differ in the order of the marks (C89); an example. *)
From Coq Require Import String Permutation.
From Verif Require Import Base Lists Cstr_Model IpKey_Model IpKey_Spec Maglev_Model Config_Model Config_Spec Maglev_Spec Flow_Model Remote_Model FlowLb_Model FlowLb_Spec FlowLb4_Proofs Lb_Model Lb_Spec
  Lb_Proofs Lb2_Proofs Steer_Spec Steer_Proofs SteerEx_Proofs Tier_Model Tier_Spec Tier_Proofs Tier3_Proofs.
From Verif Require Frag_Model Frag_Spec.

Lemma last_znth {A} (l : list A) x : znth (l ++ [x]) (zlen l) = Some x.
Proof. unfold znth, zlen. destruct (Z.ltb_spec (Z.of_nat (length l)) 0); [lia|]. rewrite Nat2Z.id, nth_error_app2, Nat.sub_diag by lia. reflexivity. Qed.
Lemma last_zupd {A} (l : list A) x y : zupd (l ++ [x]) (zlen l) y = l ++ [y].
Proof.
  unfold zupd. destruct (Z.ltb_spec (zlen l) 0) as [N|_]; [unfold zlen in N; lia|]. unfold zlen. rewrite Nat2Z.id.
  induction l as [|a l IH]; cbn; [reflexivity|]. f_equal. exact IH.
Qed.
Lemma reads s r hash k i fw : mM (t_mem s r) <> 0 -> znth (mlookup (t_mem s r)) (hash mod mM (t_mem s r)) = Some i -> 0 <= i ->
  znth (mactive (t_mem s r)) i = Some fw ->
  exists f g, readTable (fun _ => Some r) hash k = Act Quiet f /\ f s = Next [] s (Act Quiet g) /\ g s = Next [] s (k fw).
Proof.
  intros M L P A. unfold readTable. eexists _, _. split; [reflexivity|]. cbv beta. destruct (Z.eqb_spec (mM (t_mem s r)) 0); [contradiction|].
  unfold aget at 1. rewrite L. destruct (Z.ltb_spec i 0); [lia|]. split; [reflexivity|]. cbv beta. unfold aget. rewrite A. reflexivity.
Qed.

(** ** Two load-balancers, marks 10 and 11 *)
Definition t_rand (k : nat) : Z := nth k [2; 9; 1; 4; 1; 7] 0.
Definition t_hist (cs : list cmd) : mag := match (do s <- cmdInit 7 3 t_rand; run_hist s cs) with Ok s => s | _ => mkMag 0 0 [] [] [] end.
Definition tab (i : Z) : mag := if i =? 1 then t_hist [Activate [11; 10]] else t_hist [Activate [10; 11]].
Definition two (i : Z) : bool := (i =? 1) || (i =? 2).
Definition towards (v : Z) : option Z := if v =? 10 then Some 1 else if v =? 11 then Some 2 else None.
Definition t_o (i : Z) : hconf := mkH false 4 0 0 (Some (9, 9 + i)) (Frag_Model.mkConf 1 1 1 1500 1) false false (h_lib (ex_h false)).
Definition t_h (i : Z) : kind := Flow (t_o i).
Definition t_mem2 (i r : Z) : mag := if r =? 9 then tab i else ex_mem r.
Definition each (Tn : Z -> mag) (s : net) : Prop := forall i, two i = true -> tier_table (opts (t_h i)) (Tn i) (w_st (n_node s i)).
Definition t_start : net := nstart t_h (fun _ => ex_shm) t_mem2.
Definition st0 (i : Z) : state := w_st (pstart (t_h i) ex_shm (t_mem2 i)).
Lemma two_cases i : two i = true -> i = 1 \/ i = 2.
Proof. unfold two. intros H. apply Bool.orb_true_iff in H. destruct H as [H|H]; apply Z.eqb_eq in H; auto. Qed.
Definition quiet_net (s : net) : Prop := forall i, two i = true -> w_st (n_node s i) = st0 i.
Lemma quiet_each s : quiet_net s -> each tab s.
Proof.
  intros Q i N r own E. rewrite (Q i N). cbn in E. assert (r = 9) as -> by congruence. reflexivity.
Qed.
Notation E2 := (nexec t_h two towards (each tab) t_start).
Definition other (i : Z) : Z := 3 - i.
Lemma tier_program i : two i = true -> exists k local, packet (t_o i) 0 false 2048 f2 = tier (t_o i) k local /\ hashKeyAddresses k mod 7 = 6.
Proof.
  intros N. unfold packet.
  assert (G : exists rc k fi, getHashKey (S (length f2)) 0 2048 f2 = Ok (Some (rc, k, fi)) /\ (Z.land rc 3 =? 0) = false /\ hashKeyAddresses k mod 7 = 6).
  { eexists _, _, _. split; [vm_compute; reflexivity|]. split; vm_compute; reflexivity. }
  destruct G as (rc & k & fi & -> & -> & X). eexists _, _. split; [reflexivity|exact X].
Qed.

Lemma hop s hops i : E2 s -> quiet_net s -> two i = true -> n_pk s = [mkPkt 2048 f2 hops (Wire i)] ->
  exists s', E2 s' /\ quiet_net s' /\ n_pk s' = [mkPkt 2048 f2 (hops + 1) (Wire (other i))].
Proof.
  intros X QN N P. destruct (tier_program i N) as (k & local & EP & HM). set (w := n_node s i). set (pk := w_pk w).
  assert (EW : w_st w = st0 i) by (apply QN; auto).
  assert (RD : exists f g, packet (t_o i) 0 false 2048 f2 = Act Quiet f /\ f (st0 i) = Next [] (st0 i) (Act Quiet g) /\ g (st0 i) = Next [] (st0 i) (Ret (Verdict (9 + other i)))).
  { rewrite EP. unfold tier. assert (ET : h_tier (t_o i) = Some (9, 9 + i)) by reflexivity. rewrite ET.
    destruct (reads (st0 i) 9 (hashKeyAddresses k) (fun fw => if (0 <=? fw) && negb (fw =? 9 + i) then Ret (Verdict fw) else local) 0 (9 + other i)) as (f & g & R1 & R2 & R3).
    - destruct (two_cases i N) as [->| ->]; vm_compute; discriminate.
    - assert (E7 : mM (t_mem (st0 i) 9) = 7) by (destruct (two_cases i N) as [->| ->]; vm_compute; reflexivity). rewrite E7, HM.
      destruct (two_cases i N) as [->| ->]; vm_compute; reflexivity.
    - lia.
    - destruct (two_cases i N) as [->| ->]; vm_compute; reflexivity.
    - exists f, g. split; [exact R1|]. split; [exact R2|]. rewrite R3. destruct (two_cases i N) as [->| ->]; reflexivity. }
  destruct RD as (f & g & R1 & R2 & R3).
  set (w1 := mkW (st0 i) (w_flow w) (pk ++ [Act Quiet f])). set (w2 := mkW (st0 i) (w_flow w) (pk ++ [Act Quiet g])).
  set (w3 := mkW (st0 i) (w_flow w) (pk ++ [Ret (Verdict (9 + other i))])).
  set (q1 := mkPkt 2048 f2 hops (Inside i (zlen pk))).
  set (s1 := mkNet (set_node (n_node s) i w1) [q1]). set (s2 := mkNet (set_node (set_node (n_node s) i w1) i w2) [q1]).
  set (s3 := mkNet (set_node (set_node (set_node (n_node s) i w1) i w2) i w3) [q1]).
  assert (QS : forall f' w' l, (forall j, two j = true -> w_st (f' j) = st0 j) -> w_st w' = st0 i -> quiet_net (mkNet (set_node f' i w') l)).
  { intros f' w' l Q' W' j NJ. cbn [n_node]. unfold set_node. destruct (Z.eqb_spec j i) as [->|]; auto. }
  assert (Q1 : quiet_net s1) by (apply QS; auto). assert (Q2 : quiet_net s2) by (apply QS; [apply Q1|reflexivity]). assert (Q3 : quiet_net s3) by (apply QS; [apply Q2|reflexivity]).
  assert (SI : forall f' w', set_node f' i w' i = w') by (intros; unfold set_node; rewrite Z.eqb_refl; auto).
  assert (X1 : E2 s1).
  { apply nx_step with (s := s) (m := NTake 0 0 false); [exact X| |apply quiet_each; auto]. cbn [nstep]. rewrite P. cbn [znth Z.ltb Z.compare Z.to_nat nth_error q_at pstep t_h step q_eth q_data].
    rewrite R1. unfold s1, w1, q1, placed, pk. fold w. rewrite EW. reflexivity. }
  assert (X2' : E2 s2).
  { apply nx_step with (s := s1) (m := NStep i (PacketStep (zlen pk))); [exact X1| |apply quiet_each; auto]. cbn [nstep]. rewrite N. unfold s1 at 1. cbn [n_node]. rewrite SI.
    cbn [pstep t_h step w1 w_pk w_st w_flow]. rewrite last_znth, R2, last_zupd. reflexivity. }
  assert (X3 : E2 s3).
  { apply nx_step with (s := s2) (m := NStep i (PacketStep (zlen pk))); [exact X2'| |apply quiet_each; auto]. cbn [nstep]. rewrite N. unfold s2 at 1. cbn [n_node]. rewrite SI.
    cbn [pstep t_h step w2 w_pk w_st w_flow]. rewrite last_znth, R3, last_zupd. reflexivity. }
  exists (mkNet (n_node s3) [mkPkt 2048 f2 (hops + 1) (Wire (other i))]). split; [|split; [exact Q3|reflexivity]].
  apply nx_step with (s := s3) (m := NLeave 0); [exact X3| |apply quiet_each; exact Q3]. cbn [nstep s3 n_pk n_node]. cbn [znth Z.ltb Z.compare Z.to_nat nth_error q1 q_at].
  rewrite SI. cbn [w3 w_pk]. rewrite last_znth. unfold route. destruct (two_cases i N) as [->| ->]; reflexivity.
Qed.
Lemma other_two i : two i = true -> two (other i) = true.
Proof. intros N. destruct (two_cases i N) as [->| ->]; reflexivity. Qed.
Lemma loop n : exists s i, E2 s /\ quiet_net s /\ two i = true /\ n_pk s = [mkPkt 2048 f2 (Z.of_nat n) (Wire i)].
Proof.
  induction n as [|n (s & i & X & Q & N & P)].
  - assert (Q0 : forall l, quiet_net (mkNet (n_node t_start) l)) by (intros l i N; reflexivity).
    exists (mkNet (n_node t_start) [mkPkt 2048 f2 0 (Wire 1)]), 1. split; [|split; [apply Q0|split; reflexivity]].
    apply nx_step with (s := t_start) (m := NEnter 1 2048 f2); [apply nx_start; apply quiet_each, (Q0 [])|reflexivity|apply quiet_each, Q0].
  - destruct (hop s _ i X Q N P) as (s' & X' & Q' & P'). exists s', (other i). split; [auto|]. split; [auto|]. split; [apply other_two; auto|].
    rewrite P'. replace (Z.of_nat n + 1) with (Z.of_nat (S n)) by lia. reflexivity.
Qed.
Lemma tabs_reached : reached 7 3 t_rand [Activate [11; 10]] (tab 1) /\ reached 7 3 t_rand [Activate [10; 11]] (tab 2).
Proof.
  assert (K : forall cs s, (do s0 <- cmdInit 7 3 t_rand; run_hist s0 cs) = Ok s -> reached 7 3 t_rand cs s).
  { intros cs s H. destruct (cmdInit 7 3 t_rand) as [s0| | |] eqn:E; try discriminate. exists s0. auto. }
  split; apply K; vm_compute; reflexivity.
Qed.

(** ** An example: the first is flowlb, the second is lb *)
Definition e_h (i : Z) : kind := if i =? 2 then Plain (mkL (t_o 2) 0 5) else Flow (t_o i).
Definition e_mem (i r : Z) : mag := if r =? 9 then tab 2 else ex_mem r.
Definition e_start : net := nstart e_h (fun _ => ex_shm) e_mem.
Definition list_eqb (a b : list Z) : bool := if list_eq_dec Z.eq_dec a b then true else false.
Definition mag_eqb (a b : mag) : bool :=
  (mM a =? mM b) && (mN a =? mN b) && list_eqb (mlookup a) (mlookup b) && (if list_eq_dec (list_eq_dec Z.eq_dec) (mperm a) (mperm b) then true else false) && list_eqb (mactive a) (mactive b).
Lemma mag_eqb_ok a b : mag_eqb a b = true -> a = b.
Proof.
  unfold mag_eqb, list_eqb. destruct a as [a1 a2 a3 a4 a5], b as [b1 b2 b3 b4 b5]. cbn [mM mN mlookup mperm mactive]. rewrite !Bool.andb_true_iff, !Z.eqb_eq. intros ((((-> & ->) & A) & B) & C).
  destruct (list_eq_dec _ a3 b3); [|discriminate]. destruct (list_eq_dec _ a4 b4); [|discriminate]. destruct (list_eq_dec _ a5 b5); [|discriminate]. congruence.
Qed.
Definition outb (v : Z) : bool := (v <? 0) || match towards v with None => true | _ => false end.
Definition envb (same : bool) (s : net) : bool :=
  forallb (fun i => let st := w_st (n_node s i) in (if same then mag_eqb (t_mem st 9) (tab 2) else true) && forallb (fun v => (v <? 0) || negb (outb v)) (mactive (t_mem st 9)) && forallb (fun r => forallb outb (mactive (t_mem st r))) (5 :: map lb_region (t_objs st))) [1; 2].
Lemma envb_ok same s : envb same s = true -> tier_marks e_h two towards s /\ (same = true -> tier_env e_h two towards (tab 2) s).
Proof.
  unfold envb. rewrite forallb_forall. intros H.
  assert (K : forall i, two i = true -> (same = true -> tier_table (opts (e_h i)) (tab 2) (w_st (n_node s i))) /\
    (forall r o, h_tier (opts (e_h i)) = Some (r, o) -> Forall (fun v => v < 0 \/ towards v <> None) (mactive (t_mem (w_st (n_node s i)) r))) /\
    forall r, targets (e_h i) (w_st (n_node s i)) r -> Forall (outside towards) (mactive (t_mem (w_st (n_node s i)) r)));
    [|split; [intros i N; apply (K i N)|intros SM; split; intros i N; apply (K i N); exact SM]]. intros i N.
  assert (HI : In i [1; 2]) by (destruct (two_cases i N) as [->| ->]; cbn; auto). specialize (H i HI). cbv zeta in H. rewrite !Bool.andb_true_iff in H. destruct H as ((A & C) & B).
  assert (T9 : forall r o, h_tier (opts (e_h i)) = Some (r, o) -> r = 9) by (intros r o E; unfold e_h in E; destruct (i =? 2); cbn in E; congruence).
  split; [|split].
  - intros -> r own E. rewrite (T9 _ _ E). apply mag_eqb_ok, A.
  - intros r o E. rewrite (T9 _ _ E). rewrite forallb_forall in C. apply Forall_forall. intros v V. specialize (C v V). unfold outb in C.
    destruct (Z.ltb_spec v 0); [auto|]. right. destruct (towards v); [discriminate|discriminate C].
  - intros r R. assert (IR : In r (5 :: map lb_region (t_objs (w_st (n_node s i))))).
    { unfold e_h in R. destruct (i =? 2); cbn [targets l_target] in R; [left; auto|]. destruct R as (a & o & D & <-). right. apply in_map.
      unfold deref in D. destruct (znth _ _) as [o'|] eqn:EZ; [|discriminate]. destruct (lb_freed o'); [discriminate|]. injection D as ->. apply (znth_In _ _ _ _ EZ). }
    rewrite forallb_forall in B. specialize (B _ IR). rewrite forallb_forall in B. apply Forall_forall. intros v V. specialize (B v V).
    unfold outb in B. unfold outside. destruct (Z.ltb_spec v 0); [auto|]. right. destruct (towards v); [discriminate|auto].
Qed.
Definition e_env (same : bool) : net -> Prop := if same then tier_env e_h two towards (tab 2) else tier_marks e_h two towards.
Fixpoint nplay (same : bool) (s : net) (l : list nmove) : option net :=
  match l with
  | [] => Some s
  | m :: r => match nstep e_h two towards s m with Some s' => if envb same s' then nplay same s' r else None | None => None end
  end.
Lemma nplay_exec same s0 l : forall s s', nexec e_h two towards (e_env same) s0 s -> nplay same s l = Some s' -> nexec e_h two towards (e_env same) s0 s'.
Proof.
  induction l as [|m r IH]; intros s s' X H; cbn [nplay] in H; [injection H as <-; auto|].
  destruct (nstep _ _ _ s m) as [s1|] eqn:E; [|discriminate]. destruct (envb same s1) eqn:EB; [|discriminate]. eapply IH; [|exact H]. eapply nx_step; eauto.
  destruct (envb_ok _ _ EB) as (A & B). unfold e_env. destruct same; auto.
Qed.
Definition at_node (i : Z) (l : list move) : list nmove := map (NStep i) l.
(** The load-balancers see other tables first: the first fragment goes round.  Then the second table is used
    by both, and another fragment arrives at the second load-balancer. *)
Definition d_mem (i r : Z) : mag := if r =? 9 then tab i else ex_mem r.
Definition d_start : net := nstart e_h (fun _ => ex_shm) d_mem.
Definition d_before : list nmove :=
  at_node 1 (Command (plain "a" "t1") :: fs 3) ++ [NEnter 1 2048 f1; NTake 0 1 false] ++ at_node 1 (ps 0 2) ++ [NLeave 0; NTake 0 2 false] ++ at_node 2 (ps 0 2) ++
  [NLeave 0; NStep 1 (Other ex_shm (e_mem 1))].
Definition d_after : list nmove :=
  [NEnter 2 2048 f3; NTake 0 3 false] ++ at_node 1 (ps 1 7) ++ [NLeave 0; NTake 1 4 false] ++ at_node 2 (ps 1 2) ++ [NLeave 1; NTake 1 5 false] ++ at_node 1 (ps 2 3) ++ [NLeave 1].
Lemma setup2 : tier_setup e_h two towards 0.
Proof.
  constructor.
  - intros i N. exists (9 + i). destruct (two_cases i N) as [->| ->]; split; reflexivity.
  - intros v j P. unfold towards in P. destruct (Z.eqb_spec v 10) as [->|]; [injection P as <-; split; reflexivity|]. destruct (Z.eqb_spec v 11) as [->|]; [injection P as <-; split; reflexivity|discriminate].
  - intros i N. destruct (two_cases i N) as [->| ->]; split; right; reflexivity.
  - intros i N. unfold Frag_Spec.conf_ok. destruct (two_cases i N) as [->| ->]; cbn; unfold two32; lia.
  - intros i N. destruct (two_cases i N) as [->| ->]; reflexivity.
Qed.
