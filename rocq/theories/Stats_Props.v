(** The statistics of the fragment table (C73), and several load-balancers on
    one host (C74). *)
From Coq Require Import String Lia.
From Verif Require Import Base Lists Cstr_Model IpKey_Model Rangeset_Model Rangeset_Spec Print_Spec Conntrack_Model Conntrack_Spec Frag_Model
  Stats_Model Stats_Spec Stats_Proofs Stats2_Proofs Stats3_Proofs Start_Proofs Stats4_Proofs.
From Verif Require Start_Model.

(** ** C73

    What "stats" prints is no JSON text, for no counters. *)
Theorem C73_json_refuted : forall f, stats_ok f -> ~ exists v, json_text (fragPrintStats f) v.
Proof. exact stats_not_json. Qed.
Print Assumptions C73_json_refuted.

(** One comma is missing: with it, it is the object with the counters. *)
Theorem C73_shown_partial : forall f, stats_ok f ->
  exists a b, fragPrintStats f = a ++ b /\ json_text (a ++ str "," ++ b) (stats_object f (u32 (z_ttlNanos f / 1000000))).
Proof. exact stats_shown. Qed.
Print Assumptions C73_shown_partial.
Theorem C73_determines : forall f f', stats_ok f -> stats_ok f' -> fragPrintStats f = fragPrintStats f' ->
  stats_object f (u32 (z_ttlNanos f / 1000000)) = stats_object f' (u32 (z_ttlNanos f' / 1000000)).
Proof. exact stats_inj. Qed.
Print Assumptions C73_determines.

(** The counters count (modulo 2^32) what was done with the table since the
    start of the process, if only this process uses the statistics. *)
Theorem C73_counts_partial : forall h i n g ls f0, 0 < g_hsize g -> ho_obj h n = Holds f0 -> private i n h ls ->
  exists f t vs ev, ho_obj (fst (hrun h (HReady i n g :: ls))) n = Holds f /\ crun (ctCreate (g_hsize g)) (ops_of i ls) = Ok (t, vs, ev) /\
    z_size f = g_hsize g /\ z_ttlNanos f = g_ttl g /\ z_mtu f = g_mtu g /\ z_bucketsMax f = g_maxBuckets g /\ z_fragsMax f = g_maxFragments g /\
    z_lookups f = u32 (lookups (ops_of i ls)) /\ z_inserts f = u32 (inserts (ops_of i ls)) /\ z_rejected f = u32 (refusals (ops_of i ls) vs) /\
    (no_removal (ops_of i ls) -> z_objGC f = u32 (zlen (inserted (ops_of i ls) vs) - zlen (stored_data t))) /\
    z_bucketsAllocated f = u32 (zlen (allocated ev)) /\ z_bucketsUsed f = u32 (zlen (stored_buckets t)).
Proof. exact private_counts. Qed.
Print Assumptions C73_counts_partial.

(** Two keys that are in one bucket of a table of size 1: the second goes to
    an overflow bucket, a third is refused, one is collected. *)
Definition ex_conf := mkConf 1 1 0 1500 200.
Definition ex_ops : list hlabel :=
  [HOp 7 (OInsert 0 [1] 200 11 None); HOp 7 (OInsert 1 [2] 200 12 (Some 5)); HOp 7 (OInsert 2 [3] 200 13 None); HOp 7 (OLookup 3 [2]); HOp 7 (OLookup 202 [2])].
Definition ex_host : host := fst (hrun fresh [HTrunc (str "ftshm"); HZero (str "ftshm")]).
Example C73_ex : exists f, ho_obj ex_host (str "ftshm") = Holds zeros /\ private 7 (str "ftshm") ex_host ex_ops /\
  ho_obj (fst (hrun ex_host (HReady 7 (str "ftshm") ex_conf :: ex_ops))) (str "ftshm") = Holds f /\ stats_ok f /\
  z_lookups f = 2 /\ z_inserts f = 3 /\ z_rejected f = 1 /\ z_objGC f = 1 /\ z_bucketsAllocated f = 1 /\ z_bucketsUsed f = 1.
Proof.
  eexists. split; [reflexivity|]. split; [split; [cbn; discriminate|repeat constructor]|]. split; [vm_compute; reflexivity|].
  split; [unfold stats_ok, is_u32, UINT_MAX; cbn; repeat constructor; discriminate|]. repeat split; reflexivity.
Qed.

(** ttlMillis is the value of --ft_ttl up to 4294 only. *)
Theorem C73_ttl : forall g, 0 <= g_millis g <= 4294 -> u32 (z_ttlNanos (firstStats g) / 1000000) = g_millis g.
Proof. exact ttl_shown. Qed.
Print Assumptions C73_ttl.
Theorem C73_ttl_refuted : forall g, 4294 < g_millis g < two32 -> u32 (z_ttlNanos (firstStats g) / 1000000) <> g_millis g.
Proof. exact ttl_wrong. Qed.
Print Assumptions C73_ttl_refuted.
Example C73_ttl_ex : u32 (z_ttlNanos (firstStats (mkConf 500 500 0 1500 200)) / 1000000) = 200 /\ u32 (z_ttlNanos (firstStats (mkConf 500 500 0 1500 5000)) / 1000000) = 705.
Proof. split; reflexivity. Qed.

(** ** C74

    As long as the shared statistics hold the size of its table, the table of
    a load-balancer answers as if it were alone, whatever others do. *)
Theorem C74_undisturbed_partial : forall h i n g ls f, 0 < g_hsize g -> ho_obj h n = Holds f -> once i ls ->
  (forall pre o post, ls = pre ++ HOp i o :: post -> size_after n (g_hsize g) pre = g_hsize g) ->
  alone (g_hsize g) (ops_of i ls) (answers i (snd (hrun h (HReady i n g :: ls)))).
Proof. exact started_undisturbed. Qed.
Print Assumptions C74_undisturbed_partial.

(** A second load-balancer with other statistics *)
Definition ex_two : list hlabel :=
  [HOp 7 (OInsert 0 [1] 200 11 None); HTrunc (str "other"); HZero (str "other"); HReady 8 (str "other") ex_conf; HOp 8 (OLookup 1 [1]); HOp 7 (OLookup 2 [1])].
Example C74_ex : once 7 ex_two /\ (forall pre o post, ex_two = pre ++ HOp 7 o :: post -> size_after (str "ftshm") 1 pre = 1) /\
  answers 7 (snd (hrun ex_host (HReady 7 (str "ftshm") ex_conf :: ex_two))) = [(OInsert 0 [1] 200 11 None, Some 0); (OLookup 2 [1], Some 11)].
Proof.
  split; [|split].
  - intros n g H. cbn in H. repeat destruct H as [H|H]; try discriminate. destruct H.
  - intros pre o post E. unfold ex_two in E.
    do 6 (destruct pre as [|? pre]; [try discriminate E; reflexivity|cbn [app] in E; injection E as <- E; try discriminate E]).
    destruct pre; discriminate E.
  - vm_compute. reflexivity.
Qed.

(** A start that fails, because of a wrong --mtu, kills a running
    load-balancer with the default statistics at its next fragment, whatever
    was done before. *)
Theorem C74_failed_start_refuted : forall E h i j p x o, Start_Model.e_shm E (str "nfqlb") = Some x -> ho_proc h i = Some p -> pr_ft p = str "ftshm" -> uses_key o ->
  exists acts, Start_Model.cmdLb E j [str "--mtu=100"] = Ok (acts, Start_Model.Exited) /\ answers i (snd (hrun h (acts ++ [HOp i o]))) = [(o, None)].
Proof. exact failed_start. Qed.
Print Assumptions C74_failed_start_refuted.

(** A second lb with the default statistics and a larger table: the first
    looks for a key behind its table. *)
Theorem C74_larger_refuted : forall E h i j p x o, Start_Model.e_shm E (str "nfqlb") = Some x -> ho_proc h i = Some p -> pr_ft p = str "ftshm" -> i <> j ->
  key_hash o (fun v => zlen (pr_tab p) <= v mod 1000) ->
  exists acts g qs ql m r, Start_Model.cmdLb E j [str "--ft_size=1000"; str "--queue=3"] = Ok (acts, Start_Model.Serving g qs ql m r) /\
    answers i (snd (hrun h (acts ++ [HOp i o]))) = [(o, None)].
Proof. exact larger_start. Qed.
Print Assumptions C74_larger_refuted.

(** With a smaller table nobody is killed, but what the first has stored is
    not found any more. *)
Theorem C74_smaller_refuted : forall E x, Start_Model.e_shm E (str "nfqlb") = Some x ->
  exists acts g qs ql m r acts2 g2 qs2 ql2 m2 r2,
    Start_Model.cmdLb E 1 [] = Ok (acts, Start_Model.Serving g qs ql m r) /\
    Start_Model.cmdLb E 2 [str "--ft_size=100"; str "--queue=3"] = Ok (acts2, Start_Model.Serving g2 qs2 ql2 m2 r2) /\
    let ins := OInsert 0 ex_key 1000 11 None in let look := OLookup 1 ex_key in
    answers 1 (snd (hrun fresh (acts ++ [HOp 1 ins] ++ acts2 ++ [HOp 1 look]))) = [(ins, Some 0); (look, Some 0)] /\
    alone 500 [ins; look] [(ins, Some 0); (look, Some 11)].
Proof. exact smaller_start. Qed.
Print Assumptions C74_smaller_refuted.
Example C74_refuted_ex : key_hash (OLookup 0 ex_key) (fun v => 500 <= v mod 1000) /\ uses_key (OLookup 0 ex_key) /\
  ho_proc (fst (hrun ex_host [HReady 7 (str "ftshm") (mkConf 500 500 0 1500 200)])) 7 = Some (mkProc (str "ftshm") (t_buckets (ctCreate 500))).
Proof. split; [vm_compute; discriminate|]. split; [exact I|reflexivity]. Qed.
