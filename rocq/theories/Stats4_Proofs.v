(** The ttl that is shown (C73); starts that disturb (C74). *)
From Coq Require Import String Lia.
From Verif Require Import Base Lists Cstr_Model IpKey_Model Conntrack_Model Conntrack_Spec Frag_Model Stats_Model Stats_Spec Stats_Proofs Util_Proofs Flow2_Proofs Opt_Model.
From Verif Require Start_Model.

Lemma ttl_shown g : 0 <= g_millis g <= 4294 -> u32 (z_ttlNanos (firstStats g) / 1000000) = g_millis g.
Proof.
  intros H. cbn [firstStats z_ttlNanos]. unfold g_ttl, u32. rewrite (Z.mod_small (g_millis g * 1000000)) by (unfold two32; lia).
  rewrite Z.div_mul by lia. apply Z.mod_small. unfold two32. lia.
Qed.
Lemma ttl_wrong g : 4294 < g_millis g < two32 -> u32 (z_ttlNanos (firstStats g) / 1000000) <> g_millis g.
Proof.
  intros H E. cbn [firstStats z_ttlNanos] in E. unfold g_ttl, u32 in E.
  assert (B : 0 <= (g_millis g * 1000000) mod two32 < two32) by (apply Z.mod_pos_bound; reflexivity).
  set (a := (g_millis g * 1000000) mod two32) in *. rewrite Z.mod_small in E.
  2:{ split; [apply Z.div_pos; lia|apply Z.div_lt_upper_bound; unfold two32 in *; lia]. }
  pose proof (Z.mul_div_le a 1000000 ltac:(lia)) as L. unfold two32 in *. lia.
Qed.

(** ** Starts *)
Definition ex_key : list Z := [100].

Lemma answers_one i o v : answers i [(i, o, v)] = [(o, v)].
Proof. cbn. rewrite Z.eqb_refl. reflexivity. Qed.

Lemma zero_table f bs o : z_size f = 0 -> uses_key o -> tableOp f bs o = UB.
Proof.
  intros H U. destruct o as [now k|now k ttl d al|now k|now]; unfold tableOp; rewrite H; cbn [Z.eqb]; auto; [|destruct U].
  destruct U as [D _]. destruct (d =? 0) eqn:E; [lia|reflexivity].
Qed.
Lemma out_table f bs o : 0 < z_size f -> key_hash o (fun v => zlen bs <= v mod z_size f) -> tableOp f bs o = UB.
Proof.
  intros H U. destruct o as [now k|now k ttl d al|now k|now]; unfold tableOp; cbn [key_hash] in U;
    [|destruct U as [D U]; destruct (d =? 0) eqn:E; [lia|]| |destruct U].
  all: destruct (z_size f =? 0) eqn:Z0; [lia|]; unfold aget; rewrite znth_out by (right; exact U); reflexivity.
Qed.

Lemma failed_start E h i j p x o : Start_Model.e_shm E (str "nfqlb") = Some x -> ho_proc h i = Some p -> pr_ft p = str "ftshm" -> uses_key o ->
  exists acts, Start_Model.cmdLb E j [str "--mtu=100"] = Ok (acts, Start_Model.Exited) /\ answers i (snd (hrun h (acts ++ [HOp i o]))) = [(o, None)].
Proof.
  intros HE P N U. destruct x as [t own]. exists [HTrunc (str "ftshm"); HZero (str "ftshm")]. split.
  - unfold Start_Model.cmdLb.
    assert (Q : parseOptions lbOpts [str "--mtu=100"] = Ok (Parsed
      [None; Some (str "100"); None; Some (str "0"); Some (str "0"); Some (str "nfqlb"); None; Some (str "-1"); Some (str "1"); Some (str "2"); Some (str "1024"); Some (str "ftshm");
       Some (str "500"); Some (str "500"); Some (str "100"); Some (str "200"); Some (str "unix:nfqlb-trace")] [])) by (vm_compute; reflexivity).
    rewrite Q. cbn [obind]. rewrite HE. reflexivity.
  - cbn [app hrun hstep]. cbn [ho_proc ho_obj]. rewrite P, N, put_eq, zero_table by auto. cbn [snd]. apply answers_one.
Qed.

Definition vals_of (size q : string) : list (option chars) :=
  [None; Some (str "1500"); None; Some (str "0"); Some (str "0"); Some (str "nfqlb"); None; Some (str "-1"); Some (str "1"); Some (str q); Some (str "1024"); Some (str "ftshm");
       Some (str size); Some (str "500"); Some (str "100"); Some (str "200"); Some (str "unix:nfqlb-trace")].

Lemma started E j ws size q n qs t own : Start_Model.e_shm E (str "nfqlb") = Some (t, own) -> parseOptions lbOpts ws = Ok (Parsed (vals_of size q) []) ->
  u32 (atoi (str size)) = n -> queues (str q) = Ok qs ->
  exists g, Start_Model.cmdLb E j ws = Ok ([HTrunc (str "ftshm"); HZero (str "ftshm"); HReady j (str "ftshm") (mkConf n 500 0 1500 200)], Start_Model.Serving g qs 1024 1500 0).
Proof.
  intros HE P N Q. unfold Start_Model.cmdLb. rewrite P. cbn [obind vals_of]. rewrite HE. unfold Start_Model.tierOf, Start_Model.serve.
  cbn [Start_Model.m_shm Start_Model.m_mtu Start_Model.m_tun Start_Model.m_frag Start_Model.m_size Start_Model.m_buckets Start_Model.m_ttl Start_Model.m_queue Start_Model.m_qlen Start_Model.m_reasm].
  change (atoi (str "1500")) with 1500. change (1500 <? 576) with false. cbv iota. cbn [obind]. rewrite Q, N. eexists. reflexivity.
Qed.

Lemma larger_start E h i j p x o : Start_Model.e_shm E (str "nfqlb") = Some x -> ho_proc h i = Some p -> pr_ft p = str "ftshm" -> i <> j ->
  key_hash o (fun v => zlen (pr_tab p) <= v mod 1000) ->
  exists acts g qs ql m r, Start_Model.cmdLb E j [str "--ft_size=1000"; str "--queue=3"] = Ok (acts, Start_Model.Serving g qs ql m r) /\
    answers i (snd (hrun h (acts ++ [HOp i o]))) = [(o, None)].
Proof.
  intros HE P N NE U. destruct x as [t own].
  destruct (started E j [str "--ft_size=1000"; str "--queue=3"] "1000" "3" 1000 [3] t own HE) as (g & EG); [vm_compute; reflexivity|reflexivity|reflexivity|].
  rewrite EG. do 6 eexists. split; [reflexivity|].
  cbn [app hrun hstep]. cbn [ho_proc ho_obj]. rewrite put_eq. cbn [ho_proc ho_obj]. rewrite putp_ne, P, N, put_eq by auto.
  rewrite out_table; [cbn [snd app]; apply answers_one|cbn; lia|exact U].
Qed.

Lemma smaller_start E x : Start_Model.e_shm E (str "nfqlb") = Some x ->
  exists acts g qs ql m r acts2 g2 qs2 ql2 m2 r2,
    Start_Model.cmdLb E 1 [] = Ok (acts, Start_Model.Serving g qs ql m r) /\
    Start_Model.cmdLb E 2 [str "--ft_size=100"; str "--queue=3"] = Ok (acts2, Start_Model.Serving g2 qs2 ql2 m2 r2) /\
    let ins := OInsert 0 ex_key 1000 11 None in let look := OLookup 1 ex_key in
    answers 1 (snd (hrun fresh (acts ++ [HOp 1 ins] ++ acts2 ++ [HOp 1 look]))) = [(ins, Some 0); (look, Some 0)] /\
    alone 500 [ins; look] [(ins, Some 0); (look, Some 11)].
Proof.
  intros HE. destruct x as [t own].
  destruct (started E 1 [] "500" "2" 500 [2] t own HE) as (g & EG); [vm_compute; reflexivity|reflexivity|reflexivity|].
  destruct (started E 2 [str "--ft_size=100"; str "--queue=3"] "100" "3" 100 [3] t own HE) as (g2 & EG2); [vm_compute; reflexivity|reflexivity|reflexivity|].
  rewrite EG, EG2. do 12 eexists. split; [reflexivity|]. split; [reflexivity|]. cbv zeta. split.
  - vm_compute. reflexivity.
  - eexists; eexists; eexists. split; vm_compute; reflexivity.
Qed.
