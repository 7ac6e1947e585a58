(** C02-C09, C55-C58: the Maglev tables in shared memory and the commands on them. *)
From Coq Require Import Znumtheory Permutation.
From Verif Require Import Base Lists Prime_Model Maglev_Model Config_Model Config_Spec Maglev_Spec
  Config_Proofs MaglevInit_Proofs MaglevThms_Proofs.

(** Random numbers for the examples. *)
Definition ex_rand (k : nat) : Z := nth k [2; 9; 1; 4; 1; 7] 0.
Lemma ex_args : init_args 7 3 ex_rand.
Proof.
  unfold init_args, ex_rand. split; [lia|]. split; [lia|].
  intro k. do 7 (destruct k as [|k]; [cbn; lia|]). destruct k; cbn; lia.
Qed.
Definition ex_hist (cs : list cmd) : outcome mag := do s <- cmdInit 7 3 ex_rand; run_hist s cs.
Lemma ex_reached : forall cs s, ex_hist cs = Ok s -> reached 7 3 ex_rand cs s.
Proof.
  intros cs s H. unfold ex_hist in H. destruct (cmdInit 7 3 ex_rand) as [s0| | |] eqn:E; try discriminate.
  exists s0. auto.
Qed.

(** C02 - after init and any commands, with some target active every slot names an
    active target, and with none every slot holds -1. *)
Theorem C02_slots_point_to_active : forall m n rand cs s,
  init_args m n rand -> reached m n rand cs s ->
  zlen (mlookup s) = mM s /\
  ((exists j, is_active s j) -> forall c, 0 <= c < mM s ->
      exists i, znth (mlookup s) c = Some i /\ is_active s i) /\
  ((forall j, ~ is_active s j) -> forall c, 0 <= c < mM s -> znth (mlookup s) c = Some (-1)).
Proof. exact slots_active. Qed.
Print Assumptions C02_slots_point_to_active.

Example C02_ex : init_args 7 3 ex_rand /\
  exists s, reached 7 3 ex_rand [Activate [10; 11; 12]; Deactivate [11]] s /\
            mlookup s = [0; 2; 0; 2; 0; 2; 0] /\ mactive s = [10; -1; 12].
Proof.
  split; [exact ex_args|]. eexists. split; [apply ex_reached; vm_compute; reflexivity|].
  vm_compute. split; reflexivity.
Qed.

(** C03 - the slots are spread evenly: floor(M/k) or ceil(M/k) slots for each of the k
    active targets, at least one each. *)
Theorem C03_balanced : forall m n rand cs s,
  init_args m n rand -> reached m n rand cs s ->
  forall j, is_active s j ->
  let k := n_active s in
  0 < k <= mM s /\ 1 <= mM s / k /\
  mM s / k <= owned (mlookup s) j <= (mM s + k - 1) / k /\
  (forall j', is_active s j' -> Z.abs (owned (mlookup s) j - owned (mlookup s) j') <= 1).
Proof. exact balance. Qed.
Print Assumptions C03_balanced.

Example C03_ex : exists s, reached 7 3 ex_rand [Activate [10; 11; 12]] s /\
  n_active s = 3 /\ map (owned (mlookup s)) [0; 1; 2] = [3; 2; 2].
Proof. eexists. split; [apply ex_reached; vm_compute; reflexivity|]. vm_compute. split; reflexivity. Qed.

(** C04 - the table depends on the init parameters, the random numbers and the set of
    active indices only. *)
Theorem C04_table_is_function_of_active_set : forall m n rand cs1 cs2 s1 s2,
  init_args m n rand -> reached m n rand cs1 s1 -> reached m n rand cs2 s2 ->
  (forall i, is_active s1 i <-> is_active s2 i) -> mlookup s1 = mlookup s2.
Proof. exact table_function. Qed.
Print Assumptions C04_table_is_function_of_active_set.

Example C04_ex : exists s1 s2,
  reached 7 3 ex_rand [Activate [10; 11; 12]; Deactivate [11]] s1 /\
  reached 7 3 ex_rand [ActivateIdx 2 99; ActivateIdx 1 5; ActivateIdx 0 3; DeactivateIdx 1] s2 /\
  mactive s1 = [10; -1; 12] /\ mactive s2 = [3; -1; 99] /\ mlookup s1 = mlookup s2.
Proof.
  eexists. eexists. split; [apply ex_reached; vm_compute; reflexivity|].
  split; [apply ex_reached; vm_compute; reflexivity|]. vm_compute. repeat split; reflexivity.
Qed.

(** C05 - every preference list is a permutation of 0..M-1.  Full claim: for every
    table that init accepts.  Proved for M <= 65536; for larger M it is false because
    j*skip wraps around at 2^32, see the refutation. *)
Theorem C05_rows_are_permutations_partial : forall m n rand s,
  init_args m n rand -> cmdInit m n rand = Ok s -> mM s <= 65536 ->
  zlen (mperm s) = n /\ forall row, In row (mperm s) -> Permutation row (slots (mM s)).
Proof. exact rows_permutation. Qed.
Print Assumptions C05_rows_are_permutations_partial.

Example C05_ex : exists s, cmdInit 7 3 ex_rand = Ok s /\
  mperm s = [[2; 6; 3; 0; 4; 1; 5]; [1; 6; 4; 2; 0; 5; 3]; [1; 3; 5; 0; 2; 4; 6]].
Proof. eexists. split; vm_compute; reflexivity. Qed.

Theorem C05_large_table_refuted : exists m n rand s,
  init_args m n rand /\ cmdInit m n rand = Ok s /\ mM s = 65537 /\
  exists row, In row (mperm s) /\ ~ Permutation row (slots (mM s)).
Proof.
  destruct bad_row_not_permutation as [s [H1 H2]]. destruct cmdInit_65537 as [s' [H3 [H4 _]]].
  assert (s' = s) by congruence. subst s'.
  exists 65537, 1, bad_rand, s. auto using bad_args.
Qed.
Print Assumptions C05_large_table_refuted.

(** C06 - after init every sequence of commands runs to its end without leaving any
    array ([Ok], neither [UB] nor [Fuel]).  Full claim: for every table init accepts.
    Proved for M <= 65536 and int arguments, refuted above. *)
Theorem C06_commands_total_partial : forall m n rand cs s0,
  init_args m n rand -> cmdInit m n rand = Ok s0 -> mM s0 <= 65536 -> Forall cmd_int cs ->
  exists s, run_hist s0 cs = Ok s.
Proof. exact commands_total. Qed.
Print Assumptions C06_commands_total_partial.

Example C06_ex : exists s0, init_args 7 3 ex_rand /\ cmdInit 7 3 ex_rand = Ok s0 /\ mM s0 <= 65536 /\
  Forall cmd_int [Activate [1; 2; 3; 4]; DeactivateIdx 0; ActivateIdx (-1) 4; Deactivate [3]].
Proof.
  eexists. split; [exact ex_args|]. split; [vm_compute; reflexivity|]. split; [vm_compute; discriminate|].
  repeat constructor; cbn; lia.
Qed.

(** init, then "activate 7" runs off the end of the preference list. *)
Theorem C06_large_table_refuted : exists m n rand s,
  init_args m n rand /\ cmdInit m n rand = Ok s /\ run_cmd s (Activate [7]) = UB.
Proof.
  destruct activate_65537_UB as [s [H1 H2]]. exists 65537, 1, bad_rand, s. auto using bad_args.
Qed.
Print Assumptions C06_large_table_refuted.

(** C07 - all areas (header, lookup, each preference list, active) are inside the
    length computed and pairwise disjoint.  Full claim: for every (M,N) that init
    accepts.  Proved when the size needed is below 2^32 bytes; otherwise false: see
    below. *)
Theorem C07_layout_disjoint_partial : forall M N,
  0 <= M -> 0 <= N -> 24 + 4 * (M * N) + 4 * (M + N) < 2 ^ 32 ->
  (forall r, In r (regions M N) -> 0 <= fst r /\ fst r + snd r <= len_formula M N) /\
  (forall i j r1 r2, i <> j -> nth_error (regions M N) i = Some r1 ->
     nth_error (regions M N) j = Some r2 -> disjoint r1 r2).
Proof. exact layout_pairs. Qed.
Print Assumptions C07_layout_disjoint_partial.

(** Beyond, the memory is always too short for the areas. *)
Theorem C07_too_short : forall M N, 0 <= N <= M -> M <= 994009 ->
  2 ^ 32 <= 24 + 4 * (M * N) + 4 * (M + N) -> len_formula M N < 12 + 4 * M + N * (4 * M) + 4 * N.
Proof. exact layout_short. Qed.
Print Assumptions C07_too_short.

(** Below, init succeeds. *)
Theorem C07_accepted_sizes_partial : forall m n rand p,
  init_args m n rand -> primeBelow (Z.max m 3) = Ok p -> n <= p ->
  24 + 4 * (p * n) + 4 * (p + n) < 2 ^ 32 ->
  exists s, cmdInit m n rand = Ok s /\ mM s = p /\ mN s = n.
Proof. exact layout_accept. Qed.
Print Assumptions C07_accepted_sizes_partial.

Example C07_ex : regions 7 3 = [(0, 12); (12, 28); (40, 28); (68, 28); (96, 28); (124, 12)] /\
  len_formula 7 3 = 148.
Proof. vm_compute. split; reflexivity. Qed.

(** For init with M = N = 32771 (which passes the check N <= M) the length computed
    wraps around to 1048660 bytes, but the areas need more than 4 GiB: already the
    seventh preference list lies outside. *)
Theorem C07_large_size_refuted : exists m n,
  0 <= m < 2 ^ 32 /\ 0 <= n < 2 ^ 32 /\ primeBelow m = Ok 32771 /\ n <= 32771 /\
  magDataDyn_len 32771 n = Ok 1048660 /\
  exists r, nth_error (regions 32771 n) 8 = Some r /\ fst r + snd r > 1048660.
Proof.
  exists 32771, 32771. split; [lia|]. split; [lia|]. split; [vm_compute; reflexivity|]. split; [lia|].
  split; [vm_compute; reflexivity|]. eexists. split; [vm_compute; reflexivity|]. vm_compute. reflexivity.
Qed.
Print Assumptions C07_large_size_refuted.

(** C08 - after any history of activate/deactivate by fwmark, the active fwmarks are
    the set [s_hist] says; packets are steered to members only; every packet is
    steered if the set is not empty; every member gets some hash values. *)
Theorem C08_set_semantics : forall m n rand cs s,
  init_args m n rand -> reached m n rand (map to_cmd cs) s ->
  let S := s_hist n cs in
  NoDup S /\ Permutation S (filter (fun fw => 0 <=? fw) (mactive s)) /\
  (forall hash, 0 <= hash ->
     exists v, mag_lookup s hash = Ok v /\ (S = [] -> v < 0) /\ (S <> [] -> In v S)) /\
  (forall fw, In fw S -> exists hash, 0 <= hash < 2 ^ 32 /\ mag_lookup s hash = Ok fw).
Proof. exact set_semantics. Qed.
Print Assumptions C08_set_semantics.

Example C08_ex : exists s,
  let cs := [SAct [5; 6]; SAct [6; 7; 8]; SDeact [5; 9]; SAct [8]] in
  reached 7 3 ex_rand (map to_cmd cs) s /\ s_hist 3 cs = [8; 7; 6] /\
  mactive s = [8; 6; 7] /\ mag_lookup s 12345 = Ok 6.
Proof. eexists. split; [apply ex_reached; vm_compute; reflexivity|]. vm_compute. repeat split; reflexivity. Qed.

(** C09 - a packet handled by another process (which reads the lookup table and later
    the active array) while a command runs gets no target, or a fwmark that was active
    before or is active after the command. *)
Theorem C09_concurrent_reader : forall m n rand cs s c s' tr s1 s2 hash,
  init_args m n rand -> reached m n rand cs s -> run_cmd s c = Ok (s', tr) ->
  In s1 (states s tr) -> In s2 (states s tr) -> 0 <= hash ->
  exists v, read2 s1 s2 hash = Ok v /\
    (v < 0 \/ In v (mactive s) \/ In v (mactive s')).
Proof. exact reader_during. Qed.
Print Assumptions C09_concurrent_reader.

(** C09 - the same if any number of commands were killed at any of their stores, and
    however long the reader is delayed between its two reads. *)
Theorem C09_crash_points : forall m n rand s0 s1 s2 hash,
  init_args m n rand -> cmdInit m n rand = Ok s0 -> creach s0 s1 -> creach s1 s2 -> 0 <= hash ->
  exists v, read2 s1 s2 hash = Ok v /\ (v < 0 \/ In v (mactive s2)).
Proof. exact reader_crash. Qed.
Print Assumptions C09_crash_points.

(** C09 - from the first store of "deactivate fw" on, no reader is steered to fw, not
    even one which read the lookup table before the command started. *)
Theorem C09_deactivated_gone : forall m n rand cs s fw s' t tr s1 s2 hash,
  init_args m n rand -> reached m n rand (map to_cmd cs) s -> 0 <= fw ->
  run_cmd s (Deactivate [fw]) = Ok (s', t :: tr) ->
  In s1 (states s (t :: tr)) -> In s2 (states (apply_store s t) tr) -> 0 <= hash ->
  exists v, read2 s1 s2 hash = Ok v /\ v <> fw.
Proof. exact deactivated_gone. Qed.
Print Assumptions C09_deactivated_gone.

(** A command of 15 stores; the packet with hash 1 reads lookup[1] = 1 before it, and
    active[1] = -1 after the first store. *)
Example C09_ex : exists s s' t tr,
  reached 7 3 ex_rand (map to_cmd [SAct [10; 11; 12]]) s /\
  run_cmd s (Deactivate [11]) = Ok (s', t :: tr) /\ length tr = 14%nat /\
  mag_lookup s 1 = Ok 11 /\ read2 s (apply_store s t) 1 = Ok (-1) /\ mag_lookup s' 1 = Ok 12.
Proof.
  eexists. eexists. eexists. eexists. split; [apply ex_reached; vm_compute; reflexivity|].
  split; [vm_compute; reflexivity|]. vm_compute. repeat split; reflexivity.
Qed.

(** C55 - "repeating a command that was killed completes it" is false: killed after
    its first store, activate leaves the fwmark recorded but without any slot, and
    repeating the command finds it present and changes nothing: no packet is steered. *)
Theorem C55_repeat_after_kill_refuted : exists m n rand s s' tr sk,
  init_args m n rand /\ reached m n rand [] s /\
  run_cmd s (Activate [10]) = Ok (s', tr) /\ In sk (states s tr) /\
  run_cmd sk (Activate [10]) = Ok (sk, []) /\ mlookup sk <> mlookup s' /\
  (forall hash, 0 <= hash -> mag_lookup sk hash = Ok (-1)) /\
  (forall hash, 0 <= hash -> mag_lookup s' hash = Ok 10).
Proof.
  exists 7, 3, ex_rand. eexists. eexists. eexists. eexists. split; [exact ex_args|].
  split; [apply ex_reached; vm_compute; reflexivity|]. split; [vm_compute; reflexivity|].
  split; [right; left; reflexivity|]. split; [vm_compute; reflexivity|]. split; [vm_compute; discriminate|].
  split; intros hash Hh; unfold mag_lookup; cbn [mM apply_store];
    assert (Hm : 0 <= hash mod 7 < 7) by (apply Z.mod_pos_bound; lia);
    generalize dependent (hash mod 7); intros z Hz;
    assert (Hc : z = 0 \/ z = 1 \/ z = 2 \/ z = 3 \/ z = 4 \/ z = 5 \/ z = 6) by lia;
    repeat (destruct Hc as [->|Hc]; [vm_compute; reflexivity|]); subst; vm_compute; reflexivity.
Qed.
Print Assumptions C55_repeat_after_kill_refuted.

(** C55, what is true: after any number of killed commands, the next command that
    changes anything and is not killed leaves the same table as an undisturbed history
    with the same active targets. *)
Theorem C55_next_change_repairs_partial : forall m n rand s0 sk c s' tr cs s2,
  init_args m n rand -> cmdInit m n rand = Ok s0 -> creach s0 sk ->
  run_cmd sk c = Ok (s', tr) -> tr <> [] ->
  reached m n rand cs s2 -> (forall i, is_active s' i <-> is_active s2 i) -> mlookup s' = mlookup s2.
Proof. exact change_repairs. Qed.
Print Assumptions C55_next_change_repairs_partial.

Example C55_ex : exists s0 s' tr sk s'' tr'' s2, cmdInit 7 3 ex_rand = Ok s0 /\
  run_cmd s0 (Activate [10]) = Ok (s', tr) /\ In sk (states s0 tr) /\
  run_cmd sk (Activate [11]) = Ok (s'', tr'') /\ tr'' <> [] /\
  reached 7 3 ex_rand [Activate [10; 11]] s2 /\ mactive s'' = mactive s2 /\
  mlookup sk <> mlookup s'.
Proof.
  do 3 eexists. eexists. do 3 eexists. split; [vm_compute; reflexivity|]. split; [vm_compute; reflexivity|].
  split; [right; left; reflexivity|]. split; [vm_compute; reflexivity|]. split; [discriminate|].
  split; [apply ex_reached; vm_compute; reflexivity|]. split; [reflexivity|]. vm_compute. discriminate.
Qed.

(** C56 - "instances with the same set of active fwmarks steer alike" is false: the
    index a fwmark gets depends on the order of the commands (so instances must be fed
    with --index, see C04). *)
Theorem C56_same_fwmarks_same_steering_refuted : exists m n rand cs1 cs2 s1 s2 hash,
  init_args m n rand /\ reached m n rand cs1 s1 /\ reached m n rand cs2 s2 /\
  Permutation (mactive s1) (mactive s2) /\ 0 <= hash < 2 ^ 32 /\
  mag_lookup s1 hash <> mag_lookup s2 hash.
Proof.
  exists 7, 3, ex_rand, [Activate [10; 11]], [Activate [11; 10]]. eexists. eexists. exists 0.
  split; [exact ex_args|]. split; [apply ex_reached; vm_compute; reflexivity|].
  split; [apply ex_reached; vm_compute; reflexivity|].
  split; [vm_compute; apply perm_swap|]. split; [lia|]. vm_compute. discriminate.
Qed.
Print Assumptions C56_same_fwmarks_same_steering_refuted.

(** C57 - "deactivating a target only moves the traffic of that target" is false:
    slot 0 is moved from fwmark 10 to 11 when 12 is deactivated. *)
Theorem C57_minimal_disruption_refuted : exists m n rand cs s s' tr hash,
  init_args m n rand /\ reached m n rand cs s /\ run_cmd s (Deactivate [12]) = Ok (s', tr) /\
  mag_lookup s hash = Ok 10 /\ mag_lookup s' hash = Ok 11.
Proof.
  exists 7, 3, ex_rand, [Activate [10; 11; 12]]. eexists. eexists. eexists. exists 0.
  split; [exact ex_args|]. split; [apply ex_reached; vm_compute; reflexivity|].
  split; [vm_compute; reflexivity|]. vm_compute. split; reflexivity.
Qed.
Print Assumptions C57_minimal_disruption_refuted.

(** C58 - taking a target out by index and bringing it back at the same index (with any
    fwmark) restores the table. *)
Theorem C58_replace_restores_table : forall m n rand cs s i fw fw' s1 s2 t1 t2,
  init_args m n rand -> reached m n rand cs s ->
  znth (mactive s) i = Some fw -> 0 <= fw -> 0 <= fw' ->
  run_cmd s (DeactivateIdx i) = Ok (s1, t1) -> run_cmd s1 (ActivateIdx i fw') = Ok (s2, t2) ->
  mlookup s2 = mlookup s.
Proof. exact idx_roundtrip. Qed.
Print Assumptions C58_replace_restores_table.

Example C58_ex : exists s s1 s2 t1 t2, reached 7 3 ex_rand [Activate [10; 11; 12]] s /\
  run_cmd s (DeactivateIdx 1) = Ok (s1, t1) /\ run_cmd s1 (ActivateIdx 1 44) = Ok (s2, t2) /\
  mlookup s1 <> mlookup s /\ mactive s2 = [10; 44; 12].
Proof.
  eexists. eexists. eexists. eexists. eexists. split; [apply ex_reached; vm_compute; reflexivity|].
  split; [vm_compute; reflexivity|]. split; [vm_compute; reflexivity|]. vm_compute. split; [discriminate|reflexivity].
Qed.
