(** C13, C23, C24, C25: the fragment table. *)
From Verif Require Import Base Conntrack_Model Conntrack_Spec Frag_Model Frag_Spec Frag_Proofs Frag2_Proofs Frag3_Proofs.
From Coq Require Import Permutation.

(** * C13: all fragments of a datagram get the same value *)

(** Calls one after the other, by a clock that does not run backwards, each behave as the
    sessions of Frag_Spec say: other fragments are stored until the first one comes, are then
    handed back, and after that get the value of the first one; a call is refused for lack of
    room only if every overflow bucket, or every fragment buffer, was in use.  No call fails. *)
Theorem C13_table_sessions : forall g l, conf_seq g -> calls_clock 0 l ->
  exists ans s m, sessions g (fragTableCreate g) sempty l ans s m.
Proof. exact sessions_ok. Qed.
Print Assumptions C13_table_sessions.

(** Whatever happened before: once a first fragment was accepted with value [v], every call for
    the same datagram within the lifetime gets [v]. *)
Theorem C13_table_first_steers : forall g l1 now k v want d l2 ans s m,
  sessions g (fragTableCreate g) sempty (l1 ++ (CFirst now k v want, d) :: l2) ans s m ->
  exists a1 an a2, ans = a1 ++ an :: a2 /\ length a1 = length l1 /\ (an_rc an = 0 -> steered (g_ttl g) k v now l2 a2).
Proof. intros g l1 now k v want d l2 ans s m. apply first_steers. Qed.
Print Assumptions C13_table_first_steers.

(** Any number of threads and any interleaving: a value returned for a key is one that a first
    fragment with that key was accepted with before. *)
Theorem C13_table_value_of_a_first : forall g n tr w t1 k v t2, conf_ok g -> exec g (start g n) tr w ->
  tr = t1 ++ Returned k 0 (Some v) :: t2 -> In (Accepted k v) t1.
Proof. exact returned_accepted. Qed.
Print Assumptions C13_table_value_of_a_first.

(** So if the first fragments of a key are all steered to [v], no other one is steered elsewhere. *)
Theorem C13_table_one_value : forall g n tr w k v v', conf_ok g -> exec g (start g n) tr w ->
  (forall x, In (Accepted k x) tr -> x = v) -> In (Returned k 0 (Some v')) tr -> v' = v.
Proof. exact one_value. Qed.
Print Assumptions C13_table_one_value.

Definition g0 := mkConf 2 2 2 100 200.
Definition ka : ckey := [1; 2; 3].
Definition kb : ckey := [9].
Definition calls0 : list (call * bool) :=
  [(CStore 10 ka [1; 1], false); (CStore 11 kb [7], false); (CStore 12 ka [2], false);
   (CFirst 13 ka 5 true, false); (CStore 14 ka [3], false); (CStore 15 kb [8], false); (CFirst 16 kb 6 true, false);
   (CStore 17 ka [4], true); (CGet 18 ka, false)].
Fixpoint run_calls (g : conf) (s : sys) (l : list (call * bool)) : list (list (Z * option Z) * list (list Z)) :=
  match l with
  | [] => []
  | (c, d) :: r => match call_op g s c d with Ok (s1, ob) => (rc_of ob, handed_of ob) :: run_calls g s1 r | _ => [] end
  end.
Example C13_example : conf_seq g0 /\ calls_clock 0 calls0 /\
  run_calls g0 (fragTableCreate g0) calls0 =
    [([(1, None)], []); ([(1, None)], []); ([(-1, None)], []);
     ([(-1, None)], []); ([(-1, None)], []); ([(1, None)], []); ([(0, None)], [[8]; [7]]);
     ([(-1, None)], []); ([(-1, None)], [])].
Proof.
  split; [unfold conf_seq, conf_ok, g0; cbn [g_hsize g_maxBuckets g_maxFragments]; unfold two32; lia|].
  split; [unfold calls0; cbn [calls_clock c_now]; unfold two64; lia|]. vm_compute. reflexivity.
Qed.
Definition g1 := mkConf 2 2 3 100 200.
Example C13_example_steered : conf_seq g1 /\
  run_calls g1 (fragTableCreate g1) calls0 =
    [([(1, None)], []); ([(1, None)], []); ([(1, None)], []);
     ([(0, None)], [[2]; [1; 1]]); ([(0, Some 5)], []); ([(1, None)], []); ([(0, None)], [[8]; [7]]);
     ([(0, Some 5)], []); ([(-1, None)], [])].
Proof.
  split; [unfold conf_seq, conf_ok, g1; cbn [g_hsize g_maxBuckets g_maxFragments]; unfold two32; lia|]. vm_compute. reflexivity.
Qed.

(** * C23: the time-out is the configured one *)
(** Up to 4294 ms: *)
Theorem C23_timeout_partial : forall g l1 now k v want d l2 ans s m, 0 <= g_millis g <= 4294 ->
  sessions g (fragTableCreate g) sempty (l1 ++ (CFirst now k v want, d) :: l2) ans s m ->
  exists a1 an a2, ans = a1 ++ an :: a2 /\ length a1 = length l1 /\ (an_rc an = 0 -> steered (g_millis g * 1000000) k v now l2 a2).
Proof. intros g l1 now k v want d l2 ans s m H. rewrite <- (ttl_small g H). apply first_steers. Qed.
Print Assumptions C23_timeout_partial.

(** With 5000 ms the entry of a datagram is gone 1 s after its last use. *)
Theorem C23_timeout_refuted : exists g now k v d, conf_seq g /\ g_millis g = 5000 /\
  exists s1 ob1, call_op g (fragTableCreate g) (CFirst now k v true) false = Ok (s1, ob1) /\ rc_of ob1 = [(0, None)] /\
  exists s2 ob2, call_op g s1 (CStore (now + 1000000000) k d) false = Ok (s2, ob2) /\ rc_of ob2 = [(1, None)].
Proof.
  exists (mkConf 2 2 3 100 5000), 0, ka, 5, [1]. split; [unfold conf_seq, conf_ok; cbn [g_hsize g_maxBuckets g_maxFragments]; unfold two32; lia|]. split; [reflexivity|].
  eexists _, _. split; [vm_compute; reflexivity|]. split; [vm_compute; reflexivity|].
  eexists _, _. split; vm_compute; reflexivity.
Qed.
Print Assumptions C23_timeout_refuted.

(** * C24: stored fragments are conserved *)
(** In every interleaving: what was stored is what still waits, what was handed back and what was
    discarded, each with the key it was stored for and nothing twice; the counter of discarded
    fragments is right; no more fragments wait than there are buffers; only entries that wait
    for their first fragment have any. *)
Theorem C24_conserved : forall g n tr w, conf_ok g -> exec g (start g n) tr w ->
  Permutation (stored_tr tr) (pending w ++ handed_tr tr ++ discarded_tr tr) /\
  NoDup (map (fun x => f_id (snd x)) (stored_tr tr)) /\
  zlen (pending w) <= g_maxFragments g /\
  s_discarded (w_sys w) = u32 (zlen (discarded_tr tr)) /\
  (forall o b, In (o, b) (s_objs (w_sys w)) -> o_state b <> Storing -> o_stored b = []).
Proof. exact conserved. Qed.
Print Assumptions C24_conserved.

Definition pa (c : call) := mkChoice c false false.
Definition th (i : Z) (c : call) (n : nat) : list label := repeat (LThread i (pa c)) n.
Example C24_example : exists tr w, exec g1 (start g1 2) tr w /\
  map (fun x => f_data (snd x)) (stored_tr tr) = [[1]; [2]; [3]] /\ map (fun x => f_data (snd x)) (handed_tr tr) = [[1]] /\
  map (fun x => f_data (snd x)) (discarded_tr tr) = [[2]] /\ map (fun x => f_data (snd x)) (pending w) = [[3]].
Proof.
  (* stored for ka: [1]; for kb: [2]; the first fragment of ka; kb expires; [3] is stored for kb *)
  set (r := wrun g1 (start g1 2) [] (th 0 (CStore 1 ka [1]) 9 ++ th 1 (CStore 2 kb [2]) 9 ++ th 0 (CFirst 3 ka 5 true) 4 ++
              th 1 (CStore 3000000000 kb [3]) 9)).
  assert (E : exists tr w, r = Some (tr, w)) by (eexists _, _; vm_compute; reflexivity). destruct E as [tr [w E]].
  exists tr, w. split; [eapply wrun_exec; [apply ex_nil|exact E]|].
  assert (X : r = Some (tr, w)) by exact E. clear E. vm_compute in X. injection X as <- <-.
  split; [vm_compute; reflexivity|]. split; [vm_compute; reflexivity|]. split; vm_compute; reflexivity.
Qed.

(** * C25: entries are released exactly when nobody uses them *)
(** In every interleaving an entry is allocated iff the table or a thread has it. *)
Theorem C25_released_partial : forall g n tr w o, conf_ok g -> exec g (start g n) tr w ->
  (allocated_obj w o <-> in_table w o \/ in_thread w o).
Proof. exact alive_iff. Qed.
Print Assumptions C25_released_partial.

(** The only step that can go wrong is that of a thread which has inserted a new entry in the
    table and now counts its own reference, when another thread removed the entry meanwhile. *)
Theorem C25_only_window_partial : forall g n tr w l, conf_ok g -> exec g (start g n) tr w -> fails g w l ->
  exists i a o, l = LThread i a /\ window w i o /\ ~ allocated_obj w o.
Proof. exact only_window. Qed.
Print Assumptions C25_only_window_partial.

(** Without another thread running in between, nothing goes wrong. *)
Theorem C25_prompt_partial : forall g n tr w l, conf_ok g -> prompt_exec g (start g n) tr w -> ~ fails g w l.
Proof. exact prompt_safe. Qed.
Print Assumptions C25_prompt_partial.

(** It does go wrong: while thread 0 is in that window, thread 1 handles the first and the last
    fragment of the same datagram; the entry is released and thread 0 then uses it.  No time
    needs to pass. *)
Definition race : list label :=
  th 0 (CFirst 7 ka 5 true) 3 ++ th 1 (CFirst 7 ka 5 true) 4 ++
  repeat (LThread 1 (mkChoice (CStore 7 ka [1]) true false)) 5.
Theorem C25_use_after_release_refuted : exists g tr w l, conf_ok g /\ exec g (start g 2) tr w /\ fails g w l.
Proof.
  exists g1. assert (E : match wrun g1 (start g1 2) [] race with Some (_, w) => wstep g1 w (LThread 0 (pa (CGet 0 ka))) = Some UB | None => False end) by (vm_compute; reflexivity).
  destruct (wrun g1 (start g1 2) [] race) as [[tr w]|] eqn:E1; [|destruct E]. exists tr, w, (LThread 0 (pa (CGet 0 ka))).
  split; [unfold conf_ok, g1; cbn [g_hsize g_maxBuckets g_maxFragments]; unfold two32; lia|].
  split; [eapply wrun_exec; [apply ex_nil|exact E1]|]. exists UB. split; [exact E|]. intros x H. discriminate.
Qed.
Print Assumptions C25_use_after_release_refuted.
