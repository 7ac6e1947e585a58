(** Properties of the connection table and the item pool: C19-C22, C26. *)
From Coq Require Import Permutation.
From Verif Require Import Base IpKey_Model Conntrack_Model Conntrack_Spec Conntrack_Proofs Conntrack2_Proofs.
From Verif Require Import ItemPool_Model ItemPool_Spec ItemPool_Proofs.

(** C19 - for every history of calls with non-decreasing clock readings the table gives
    the answers of a finite map with time-to-live; in particular every call succeeds. *)
Theorem C19_map_with_ttl : forall size ops, 0 < size -> clock_from 0 ops -> ttls_ok ops ->
  exists t vs ev m, crun (ctCreate size) ops = Ok (t, vs, ev) /\ spec_run empty ops vs m.
Proof. exact map_with_ttl. Qed.
Print Assumptions C19_map_with_ttl.

Lemma ex_run : forall size ops (P : ct -> list Z -> list event -> Prop),
  match crun (ctCreate size) ops with Ok (t, vs, ev) => P t vs ev | _ => False end ->
  exists t vs ev, crun (ctCreate size) ops = Ok (t, vs, ev) /\ P t vs ev.
Proof. intros size ops P H. destruct (crun (ctCreate size) ops) as [[[t vs] ev]| | |]; try contradiction. eauto. Qed.
Definition ex_k1 : ckey := repeat 1 40.
Definition ex_k2 : ckey := repeat 2 40.
Definition ex_ops : list cop :=
  [OInsert 10 ex_k1 100 7 None; OInsert 11 ex_k2 50 8 (Some 1); OLookup 60 ex_k1; OInsert 61 ex_k1 5 9 None;
   OLookup 62 ex_k2; OStats 100; ORemove 120 ex_k1; OLookup 120 ex_k1].
Example C19_ex : 0 < 1 /\ clock_from 0 ex_ops /\ ttls_ok ex_ops /\
  exists t ev, crun (ctCreate 1) ex_ops = Ok (t, [0; 0; 7; 1; 0; 1; 0; 0], ev).
Proof.
  split; [lia|]. split; [cbn; unfold two64; lia|]. split.
  - intros now k ttl d al H. cbn in H. unfold two64. repeat destruct H as [H|H]; try discriminate; try contradiction; injection H as <- <- <- <- <-; lia.
  - vm_compute. do 2 eexists. reflexivity.
Qed.

(** C20 - whatever the clock readings, what was inserted is either stored or was freed,
    with multiplicities; a datum that was given to the table once is freed at most once
    and not while a lookup can find it. *)
Theorem C20_data_conserved : forall size ops t vs ev, crun (ctCreate size) ops = Ok (t, vs, ev) ->
  Permutation (inserted ops vs) (stored_data t ++ freed_data ev) /\
  Permutation (allocated ev) (stored_buckets t ++ freed_buckets ev).
Proof. exact data_conserved. Qed.
Print Assumptions C20_data_conserved.

Theorem C20_freed_at_most_once : forall size ops t vs ev, crun (ctCreate size) ops = Ok (t, vs, ev) ->
  NoDup (inserted ops vs) ->
  NoDup (freed_data ev) /\ (forall d, In d (freed_data ev) -> ~ In d (stored_data t)).
Proof. exact freed_once. Qed.
Print Assumptions C20_freed_at_most_once.

Theorem C20_not_freed_while_found : forall size ops t vs ev now k t' v ev', crun (ctCreate size) ops = Ok (t, vs, ev) ->
  NoDup (inserted ops vs) -> ctLookup t now k = Ok (t', v, ev') -> v <> 0 -> ~ In v (freed_data (ev ++ ev')).
Proof. exact not_freed_while_found. Qed.
Print Assumptions C20_not_freed_while_found.

(** Everything is freed by ctDestroy at the latest, if no entry lives up to the last
    value of the 64-bit clock. *)
Theorem C20_all_freed_in_the_end_partial : forall size ops t vs ev T L, crun (ctCreate size) ops = Ok (t, vs, ev) ->
  (forall o, In o ops -> 0 <= op_now o <= T) ->
  (forall now k ttl d al, In (OInsert now k ttl d al) ops -> 0 <= ttl <= L) -> T + L < UINT64_MAX ->
  Permutation (inserted ops vs) (freed_data (ev ++ ctDestroy t)) /\
  Permutation (allocated ev) (freed_buckets (ev ++ ctDestroy t)).
Proof. exact all_freed_in_the_end. Qed.
Print Assumptions C20_all_freed_in_the_end_partial.

(** An entry whose time-to-live is the largest 64-bit number is not freed by ctDestroy. *)
Theorem C20_eternal_entry_leaks_refuted : forall size k d al now, 0 < size -> 0 <= now < two64 -> d <> 0 ->
  exists t ev, crun (ctCreate size) [OInsert now k UINT64_MAX d al] = Ok (t, [0], ev) /\
    freed_data (ev ++ ctDestroy t) = [].
Proof. exact destroy_keeps_eternal. Qed.
Print Assumptions C20_eternal_entry_leaks_refuted.

Definition ex_ops20 : list cop := [OInsert 10 ex_k1 100 7 None; OInsert 11 ex_k2 50 8 (Some 1); OLookup 62 ex_k2].
Example C20_ex : exists t vs ev, crun (ctCreate 1) ex_ops20 = Ok (t, vs, ev) /\
  inserted ex_ops20 vs = [7; 8] /\ freed_data ev = [8] /\ stored_data t = [7] /\
  omap (fun x => snd (fst x)) (ctLookup t 63 ex_k1) = Ok 7.
Proof. apply ex_run. vm_compute. repeat split; reflexivity. Qed.
Example C20_ex_end : (forall o, In o ex_ops20 -> 0 <= op_now o <= 62) /\
  (forall now k ttl d al, In (OInsert now k ttl d al) ex_ops20 -> 0 <= ttl <= 100) /\ 62 + 100 < UINT64_MAX.
Proof.
  split; [|split; [|reflexivity]].
  - intros o H. cbn in H. repeat destruct H as [<-|H]; try contradiction; cbn; lia.
  - intros now k ttl d al H. cbn in H. repeat destruct H as [H|H]; try discriminate; try contradiction; injection H as <- <- <- <- <-; lia.
Qed.

(** C21 - an insert is refused iff the user's allocator refuses a bucket (or the datum is
    NULL), and then the key's main slot holds another entry; the overflow buckets in use
    are those allocated and not freed, so the table holds at most that many entries plus
    one for each slot. *)
Theorem C21_insert_fails_only_at_capacity : forall size ops t vs ev now k ttl d al t' v ev', crun (ctCreate size) ops = Ok (t, vs, ev) ->
  ctInsertWithTTL t now k ttl d al = Ok (t', v, ev') -> d <> 0 ->
  (v = -1 <-> In (AllocBucket None) ev') /\
  (v = -1 -> al = None /\ exists b, znth (t_buckets t') (djb2 k mod zlen (t_buckets t)) = Some b /\
                                    c_data (b_main b) <> 0 /\ c_key (b_main b) <> k) /\
  (v = -1 \/ v = 0 \/ v = 1).
Proof. exact insert_fails_run. Qed.
Print Assumptions C21_insert_fails_only_at_capacity.

Theorem C21_capacity : forall size ops t vs ev, 0 <= size -> crun (ctCreate size) ops = Ok (t, vs, ev) ->
  zlen (stored_data t) <= size + (zlen (allocated ev) - zlen (freed_buckets ev)) /\
  zlen (allocated ev) - zlen (freed_buckets ev) = zlen (stored_buckets t).
Proof. exact capacity. Qed.
Print Assumptions C21_capacity.

Example C21_ex : exists t vs ev, crun (ctCreate 1) [OInsert 10 ex_k1 100 7 None] = Ok (t, vs, ev) /\
  omap (fun x => snd (fst x)) (ctInsertWithTTL t 11 ex_k2 100 8 None) = Ok (-1).
Proof. apply ex_run. vm_compute. reflexivity. Qed.

(** C22 - an operation whose clock reading is not older than an entry's last reference
    keeps the entry while it is live, whatever the order of the clock readings before;
    but one with an older reading (a thread that read the clock before another thread
    referenced the entry) expires it at once. *)
Theorem C22_live_entry_kept_partial : forall size ops t vs ev o t' v ev' c, crun (ctCreate size) ops = Ok (t, vs, ev) ->
  cstep t o = Ok (t', v, ev') -> entry t c ->
  0 <= c_ref c <= op_now o -> op_now o < two64 -> op_now o - c_ref c <= c_ttl c ->
  (forall now, o <> ORemove now (c_key c)) ->
  exists c', entry t' c' /\ c_key c' = c_key c /\ c_data c' = c_data c /\ c_ttl c' = c_ttl c /\
             (c_ref c' = c_ref c \/ c_ref c' = op_now o).
Proof. exact keeps_live_run. Qed.
Print Assumptions C22_live_entry_kept_partial.

Theorem C22_older_clock_expires_refuted : forall size k ttl d al t0 r now, 0 < size -> d <> 0 ->
  0 <= t0 <= r -> r < two64 -> r - t0 <= ttl -> 0 <= now < r -> 0 <= ttl -> ttl < two64 - (r - now) ->
  exists t ev, crun (ctCreate size) [OInsert t0 k ttl d al; OLookup r k; OLookup now k] = Ok (t, [0; d; 0], ev) /\
    freed_data ev = [d].
Proof. exact early_clock_evicts. Qed.
Print Assumptions C22_older_clock_expires_refuted.

Example C22_ex : exists t vs ev, crun (ctCreate 3) [OInsert 10 ex_k1 100 7 None; OLookup 12 ex_k1] = Ok (t, vs, ev) /\
  exists c, entry t c /\ c_ref c = 12 /\ c_ttl c = 100.
Proof.
  apply ex_run. match goal with |- match ?r with _ => _ end => let v := eval vm_compute in r in replace r with v by (vm_compute; reflexivity) end. cbv iota beta.
  exists (mkCent ex_k1 7 12 100 0). split; [|split; reflexivity].
  exists (djb2 ex_k1 mod 3). vm_compute. eexists. split; [reflexivity|]. split; [left; reflexivity|]. discriminate.
Qed.
Example C22_ex_refuted : exists t ev, crun (ctCreate 3) [OInsert 10 ex_k1 1000000000 7 None; OLookup 12 ex_k1; OLookup 11 ex_k1] = Ok (t, [0; 7; 0], ev).
Proof. vm_compute. do 2 eexists. reflexivity. Qed.

(** C26 - for every history of pool operations that clients may make: every item is free
    or held by one client list and not both; the operation succeeds, an allocation fails
    iff all items are held, and the statistics are exact. *)
Theorem C26_every_item_free_or_held : forall n p held h, 0 <= n < two32 -> reach n p held h ->
  exists free, NoDup (free ++ concat held) /\ (forall i, In i (free ++ concat held) <-> 0 <= i < n) /\
    st_size (p_stats p) = n /\ st_nFree (p_stats p) = zlen free /\ st_nFree (p_stats p) = n - n_held held /\
    st_nAlloc (p_stats p) = u32 (allocs (since_clear h)) /\
    st_nRejected (p_stats p) = u32 (rejects (since_clear h)).
Proof. exact pool_partition. Qed.
Print Assumptions C26_every_item_free_or_held.

Theorem C26_operations_succeed : forall n p held h o, 0 <= n < two32 -> reach n p held h -> may held o ->
  exists p' r, pstep p o = Ok (p', r) /\ (exists held', client held o r held') /\
    (is_alloc o = true -> (r = None <-> n_held held = n)) /\
    (forall i, r = Some i -> 0 <= i < n /\ ~ In i (concat held)).
Proof. exact pool_step. Qed.
Print Assumptions C26_operations_succeed.

(** Creation succeeds (memory permitting) while the size fits in 32 bits; otherwise the
    block can be too small and creation writes outside it. *)
Theorem C26_create_partial : forall n sz, 0 <= n -> 0 <= sz -> n * (24 + sz) < two32 ->
  exists p, itemPoolCreate n sz true = Ok (Some p).
Proof. exact create_ok. Qed.
Print Assumptions C26_create_partial.

Theorem C26_large_pool_refuted : forall n sz, 0 < n -> u32 (n * u32 (24 + sz)) < 24 -> itemPoolCreate n sz true = UB.
Proof. exact create_overflow. Qed.
Print Assumptions C26_large_pool_refuted.

(** Destroying a pool of no items frees an uninitialised pointer. *)
Theorem C26_empty_pool_destroy_refuted : forall sz ok, exists p, itemPoolCreate 0 sz ok = Ok (Some p) /\ itemPoolDestroy p = UB.
Proof. intros. eexists. split; reflexivity. Qed.
Print Assumptions C26_empty_pool_destroy_refuted.

Example C26_ex_large : 0 < 65536 /\ u32 (65536 * u32 (24 + 65512)) < 24.
Proof. split; reflexivity. Qed.
Example C26_ex : exists p h, reach 2 p [[0; 1]] h /\ may [[0; 1]] (PFree (Some 0)).
Proof.
  do 2 eexists. split; [|exists [1]; left; reflexivity].
  eapply re_step with (o := PAllocNext (Some 1)) (held := [[1]]); [eapply re_step with (o := PAlloc); [apply (re_new 2 100); reflexivity|reflexivity|apply cl_alloc_ok]|reflexivity|].
  exact (cl_next_ok [[1]] 0 [] 1 [] [] eq_refl).
Qed.
