(** Lines on tables: names, single commands (C76). *)
From Coq Require Import String Znumtheory.
From Verif Require Import Base Lists Cstr_Model Rangeset_Model Rangeset_Spec Prime_Model Prime_Proofs Maglev_Model Config_Model Maglev_Spec Config_Proofs
  MaglevThms_Proofs Opt_Model Opt_Spec Util_Proofs Flow2_Proofs Opt_Proofs Opt2_Proofs Start_Spec Start_Proofs Shm_Model Shm_Spec Shm_Proofs Shm2_Proofs Shm3_Proofs
  Shm4_Proofs Shm5_Proofs Lines_Model Lines_Spec.

(** ** Names *)
Lemma drop_repeat k x : (match x with 47 :: _ => False | _ => True end) -> dropSlash (repeat 47 k ++ x) = x.
Proof.
  intros H. induction k as [|k IH]; cbn [repeat app dropSlash]; [|rewrite IH; reflexivity].
  destruct x as [|c x]; [reflexivity|]. cbn [dropSlash]. destruct (c =? 47) eqn:E; [|reflexivity]. apply Z.eqb_eq in E. subst c. destruct H.
Qed.
Lemma drop_inv n : exists k, n = repeat 47 k ++ dropSlash n.
Proof.
  induction n as [|c n (k & IH)]; [exists 0%nat; reflexivity|]. cbn [dropSlash]. destruct (c =? 47) eqn:E; [|exists 0%nat; reflexivity].
  apply Z.eqb_eq in E. subst c. exists (S k). cbn [repeat app]. rewrite <- IH. reflexivity.
Qed.
Lemma name_object shm x : shmName shm = Some x <-> object shm x.
Proof.
  unfold shmName, object. split.
  - destruct ((zlen (dropSlash shm) =? 0) || (255 <=? zlen (dropSlash shm) + 1) || existsb (Z.eqb 47) (dropSlash shm)) eqn:E; [discriminate|].
    intros Q. injection Q as Q. apply Bool.orb_false_iff in E. destruct E as [E E3]. apply Bool.orb_false_iff in E. destruct E as [E1 E2].
    destruct (drop_inv shm) as (k & D). rewrite Q in *. exists k. split; [exact D|]. split; [intros ->; discriminate|]. split; [|lia].
    intros I. rewrite (proj2 (existsb_exists _ _)) in E3; [discriminate|]. exists 47. auto.
  - intros (k & -> & NE & NI & L). rewrite drop_repeat.
    2:{ destruct x as [|c x]; auto. assert (c <> 47) by (intros ->; apply NI; left; reflexivity).
        destruct c as [|[p|p|]|p]; auto. repeat (destruct p as [p|p|]; auto). }
    assert (Z1 : (zlen x =? 0) = false). { destruct x; [contradiction|]. unfold zlen. cbn [length]. lia. }
    assert (Z2 : (255 <=? zlen x + 1) = false) by lia.
    assert (Z3 : existsb (Z.eqb 47) x = false).
    { destruct (existsb (Z.eqb 47) x) eqn:E; [|reflexivity]. apply existsb_exists in E. destruct E as (c & I & Q). apply Z.eqb_eq in Q. subst c. contradiction. }
    rewrite Z1, Z2, Z3. reflexivity.
Qed.

(** ** The values of a line *)
Lemma line_vals2 opts its tail : table_ok opts -> Forall (item_ok opts) its -> (forall i, ~ missing opts its i) ->
  exists vals, parseOptions opts (line its tail) = Ok (Parsed vals (rest_words its tail)) /\ zlen vals = zlen opts /\
    forall i o n v, znth opts i = Some o -> p_name o = str n -> value_of opts its n v -> znth vals i = Some v.
Proof.
  intros T F R. destruct (line_read opts its tail T F R) as (vals & P & L & V).
  exists vals. split; [auto|]. split; [auto|]. intros i o n v Ho En (j & o' & Hj & Ej & Hv).
  assert (i = j). { destruct T as (_ & ND & _). eapply names_unique; eauto. congruence. }
  subst j. destruct (znth vals i) as [x|] eqn:Ex.
  - f_equal. eapply value_unique; eauto.
  - exfalso. apply znth_none_range in Ex. apply znth_some_range in Ho. lia.
Qed.
Lemma none_missing opts its : (forall o, In o opts -> p_req o = false) -> forall i, ~ missing opts its i.
Proof. intros R i (o & Ho & Rq & _). apply znth_In in Ho. rewrite (R o Ho) in Rq. discriminate. Qed.

Lemma config_table : table_ok configOpts /\ forall o, In o configOpts -> p_req o = false.
Proof.
  split; [exact (proj1 (Forall_forall _ _) tables_all_ok configOpts ltac:(cbn; tauto))|]. intros o H. cbn [configOpts In] in H. repeat destruct H as [<-|H]; try reflexivity. destruct H.
Qed.
Lemma init_table : table_ok initOpts /\ forall o, In o initOpts -> p_req o = false.
Proof.
  split; [exact (proj1 (Forall_forall _ _) tables_all_ok initOpts ltac:(cbn; tauto))|]. intros o H. cbn [initOpts In] in H. repeat destruct H as [<-|H]; try reflexivity. destruct H.
Qed.
Lemma show_table : table_ok showOpts /\ forall o, In o showOpts -> p_req o = false.
Proof.
  split; [exact (proj1 (Forall_forall _ _) tables_all_ok showOpts ltac:(cbn; tauto))|]. intros o H. cbn [showOpts In] in H. repeat destruct H as [<-|H]; try reflexivity. destruct H.
Qed.
Lemma delete_table : table_ok deleteOpts.
Proof. exact (proj1 (Forall_forall _ _) tables_all_ok deleteOpts ltac:(cbn; tauto)). Qed.
Lemma delete_missing its shm : value_of deleteOpts its "shm" (Some shm) -> forall i, ~ missing deleteOpts its i.
Proof.
  intros (i & o & Ho & En & HV) j (o' & Ho' & Rq & NM).
  assert (i = 1). { eapply (names_unique deleteOpts i 1 o (must "shm")); [apply delete_table|exact Ho|reflexivity|exact En]. }
  subst i. assert (j = 1).
  { apply znth_cons_inv in Ho'. destruct Ho' as [(-> & ->)|(k & -> & K & Ho')]; [discriminate|]. apply znth_cons_inv in Ho'.
    destruct Ho' as [(-> & _)|(k2 & -> & K2 & Ho')]; [reflexivity|]. unfold znth in Ho'. destruct (k2 <? 0); [discriminate|]. destruct (Z.to_nat k2); discriminate. }
  subst j. destruct HV as [(pre & it & post & -> & G & _)|(_ & o2 & Ho2 & E)].
  - apply (NM it); [apply in_or_app; right; left; reflexivity|]. eexists. exact G.
  - cbn in Ho2. injection Ho2 as <-. discriminate.
Qed.

Lemma len2 (A : Type) (l : list A) : zlen l = 2 -> exists v0 v1, l = [v0; v1].
Proof. intros H. do 2 (destruct l as [|? l]; [cbn in H; lia|]). destruct l; [|unfold zlen in H; cbn [length] in H; lia]. repeat eexists. Qed.
Lemma len3 (A : Type) (l : list A) : zlen l = 3 -> exists v0 v1 v2, l = [v0; v1; v2].
Proof. intros H. do 3 (destruct l as [|? l]; [cbn in H; lia|]). destruct l; [|unfold zlen in H; cbn [length] in H; lia]. repeat eexists. Qed.
Lemma len5 (A : Type) (l : list A) : zlen l = 5 -> exists v0 v1 v2 v3 v4, l = [v0; v1; v2; v3; v4].
Proof. intros H. do 5 (destruct l as [|? l]; [cbn in H; lia|]). destruct l; [|unfold zlen in H; cbn [length] in H; lia]. repeat eexists. Qed.
Lemma config_line its tail shm index : Forall (item_ok configOpts) its -> value_of configOpts its "shm" (Some shm) -> value_of configOpts its "index" index ->
  exists v, parseOptions configOpts (line its tail) = Ok (Parsed [v; Some shm; index] (rest_words its tail)).
Proof.
  intros F V1 V2. destruct config_table as [TO RQ]. destruct (line_vals2 configOpts its tail TO F (none_missing _ _ RQ)) as (vals & P & L & V).
  destruct (len3 _ vals L) as (v0 & v1 & v2 & ->).
  pose proof (V 1 _ _ _ eq_refl eq_refl V1) as G1. pose proof (V 2 _ _ _ eq_refl eq_refl V2) as G2. cbn in G1, G2. injection G1 as ->. injection G2 as ->. eauto.
Qed.
Lemma init_line its tail shm own n m : Forall (item_ok initOpts) its -> value_of initOpts its "shm" (Some shm) -> value_of initOpts its "ownfw" own ->
  value_of initOpts its "N" n -> value_of initOpts its "M" m ->
  exists v, parseOptions initOpts (line its tail) = Ok (Parsed [v; own; Some shm; n; m] (rest_words its tail)).
Proof.
  intros F V1 V2 V3 V4. destruct init_table as [TO RQ]. destruct (line_vals2 initOpts its tail TO F (none_missing _ _ RQ)) as (vals & P & L & V).
  destruct (len5 _ vals L) as (v0 & v1 & v2 & v3 & v4 & ->).
  pose proof (V 1 _ _ _ eq_refl eq_refl V2) as G1. pose proof (V 2 _ _ _ eq_refl eq_refl V1) as G2. pose proof (V 3 _ _ _ eq_refl eq_refl V3) as G3. pose proof (V 4 _ _ _ eq_refl eq_refl V4) as G4.
  cbn in G1, G2, G3, G4. injection G1 as ->. injection G2 as ->. injection G3 as ->. injection G4 as ->. eauto.
Qed.
Lemma show_line its tail shm : Forall (item_ok showOpts) its -> value_of showOpts its "shm" (Some shm) ->
  exists v, parseOptions showOpts (line its tail) = Ok (Parsed [v; Some shm] (rest_words its tail)).
Proof.
  intros F V1. destruct show_table as [TO RQ]. destruct (line_vals2 showOpts its tail TO F (none_missing _ _ RQ)) as (vals & P & L & V).
  destruct (len2 _ vals L) as (v0 & v1 & ->).
  pose proof (V 1 _ _ _ eq_refl eq_refl V1) as G1. cbn in G1. injection G1 as ->. eauto.
Qed.
Lemma delete_line its tail shm : Forall (item_ok deleteOpts) its -> value_of deleteOpts its "shm" (Some shm) ->
  exists v, parseOptions deleteOpts (line its tail) = Ok (Parsed [v; Some shm] (rest_words its tail)).
Proof.
  intros F V1. destruct (line_vals2 deleteOpts its tail delete_table F (delete_missing _ _ V1)) as (vals & P & L & V).
  destruct (len2 _ vals L) as (v0 & v1 & ->).
  pose proof (V 1 _ _ _ eq_refl eq_refl V1) as G1. cbn in G1. injection G1 as ->. eauto.
Qed.

Lemma atois ws fws : Forall2 is_num ws fws -> map atoi ws = fws /\ Forall int32 fws.
Proof.
  induction 1 as [|w fw ws fws N F (IH1 & IH2)]; [split; [reflexivity|constructor]|]. cbn [map]. rewrite (atoi_num _ _ N), IH1. split; [reflexivity|].
  constructor; [destruct N; assumption|assumption].
Qed.

(** ** Tables *)
Definition held (f : list Z) (t : made) : Prop :=
  exists s0 s, init_args (d_m t) (d_n t) (d_rand t) /\ cmdInit (d_m t) (d_n t) (d_rand t) = Ok s0 /\ mM s0 <= 65536 /\
    run_hist s0 (d_cmds t) = Ok s /\ holds f (d_own t) s /\ sized (d_own t) s.
Definition viewed (t : made) (vw : view) : Prop := exists s0, cmdInit (d_m t) (d_n t) (d_rand t) = Ok s0 /\ vw = v (mM s0) (mN s0).


Lemma held_facts t s0 s : init_args (d_m t) (d_n t) (d_rand t) -> cmdInit (d_m t) (d_n t) (d_rand t) = Ok s0 -> run_hist s0 (d_cmds t) = Ok s -> mM s0 <= 65536 ->
  mM s = mM s0 /\ mN s = mN s0 /\ mN s = d_n t /\ 3 <= mM s <= 65536 /\ 0 <= mN s <= mM s /\ wf s /\ synced s /\ good_rows s.
Proof.
  intros IA H0 RH HM. destruct (init_facts _ _ _ _ IA H0) as (W1 & W2 & W3 & W4 & W5 & W6 & W7 & W8 & _).
  destruct (run_hist_wf _ _ _ W1 W2 RH) as (V1 & V2 & V3 & V4 & V5). pose proof IA as (_ & NB & _).
  split; [exact V3|]. split; [exact V4|]. split; [congruence|]. split; [lia|]. split; [lia|]. split; [exact V1|]. split; [exact V2|].
  eapply good_rows_eq; [exact (init_good_rows _ _ _ _ IA H0 HM)|exact V3|exact V5].
Qed.

Lemma index_u32 n i : int32 i -> 0 <= n <= 65536 -> ((u32 i >=? n) = false <-> 0 <= i < n).
Proof.
  unfold int32, u32, two32. intros H N. destruct (Z_lt_dec i 0) as [L|L].
  - replace (i mod 4294967296) with (i + 4294967296). 2:{ rewrite <- (Z_mod_plus_full i 1). rewrite Z.mod_small by lia. lia. } lia.
  - rewrite Z.mod_small by lia. lia.
Qed.

Definition grown (t : made) (c : cmd) : made := mkMade (d_own t) (d_m t) (d_n t) (d_rand t) (d_cmds t ++ [c]).
Lemma hist_app : forall cs m m' c, run_hist m cs = Ok m' -> run_hist m (cs ++ [c]) = match run_cmd m' c with Ok (m2, _) => Ok m2 | Die => Ok m' | UB => UB | Fuel => Fuel end.
Proof.
  induction cs as [|c0 cs IH]; intros m m' c H; cbn [run_hist app] in *; [injection H as <-; destruct (run_cmd m c) as [[? ?]| | |]; reflexivity|].
  destruct (run_cmd m c0) as [[m1 ?]| | |]; auto; discriminate.
Qed.

Lemma held_cmd f t c : held f t -> cmd_ints c ->
  (index_ok (d_n t) c -> exists f' tr, wrun f c = Ok (f', tr) /\ held f' (grown t c)) /\ (~ index_ok (d_n t) c -> wrun f c = Die).
Proof.
  intros (s0 & s & IA & H0 & HM & RH & HF & SZ) CI. destruct (held_facts t s0 s IA H0 RH HM) as (F1 & F2 & F3 & F4 & F5 & F6 & F7 & F8).
  assert (IX : match c with ActivateIdx i _ | DeactivateIdx i => ((u32 i >=? mN s) = false <-> index_ok (d_n t) c) | _ => index_ok (d_n t) c end).
  { destruct c as [fws|i fw|fws|i]; cbn [index_ok cmd_ints] in *; auto; rewrite <- F3; apply index_u32; try tauto; lia. }
  split.
  - intros OKI. destruct (run_cmd_total s c F6 F8 ltac:(lia) (ints_int c CI)) as [((s2 & tr) & RC)|RC].
    + destruct (holds_run f (d_own t) s c s2 tr HF SZ CI RC) as (f' & wtr & WR & HF' & SZ' & _). exists f', wtr. split; [exact WR|].
      exists s0, s2. cbn [grown d_own d_m d_n d_rand d_cmds]. repeat (split; [assumption|]). split; [|split; assumption]. rewrite (hist_app _ _ _ _ RH), RC. reflexivity.
    + exfalso. apply run_die in RC. destruct c as [fws|i fw|fws|i]; auto; apply IX in OKI; lia.
  - intros NOK. apply (holds_die f (d_own t) s c HF SZ). destruct c as [fws|i fw|fws|i]; try (cbn [index_ok] in NOK; tauto); cbn [run_cmd];
      destruct (u32 i >=? mN s) eqn:E; try reflexivity; exfalso; apply NOK; apply IX; reflexivity.
Qed.

Lemma held_nonempty f t : held f t -> f <> [].
Proof. intros (s0 & s & _ & _ & _ & _ & (len & rest & -> & _) & _). cbn. discriminate. Qed.
Lemma held_view f t : held f t -> exists vw, map_view f = Ok vw /\ viewed t vw.
Proof.
  intros (s0 & s & IA & H0 & HM & RH & HF & SZ). destruct (held_facts t s0 s IA H0 RH HM) as (F1 & F2 & _). exists (v (mM s) (mN s)).
  split; [apply (holds_view f (d_own t) s); auto|]. exists s0. rewrite F1, F2. auto.
Qed.
Lemma table_same t s s0 s' : cmdInit (d_m t) (d_n t) (d_rand t) = Ok s0 -> run_hist s0 (d_cmds t) = Ok s -> table_of t s' -> s' = s.
Proof. intros A B (s1 & C & D). assert (s1 = s0) by congruence. subst. congruence. Qed.
Lemma held_show f t s : held f t -> table_of t s -> forall name,
  cmdShow name f = Ok (show_text name (d_own t) (mM s) (d_n t) (firstn 25 (mlookup s)) (actives (mactive s) 0)).
Proof.
  intros (s0 & s' & IA & H0 & HM & RH & HF & SZ) T name. rewrite (table_same t s' s0 s H0 RH T) in *. destruct (held_facts t s0 s' IA H0 RH HM) as (F1 & F2 & F3 & F4 & F5 & _).
  rewrite <- F3. apply (shows f (d_own t) s' HF SZ); lia.
Qed.
Lemma held_look f t s vw hash x : held f t -> table_of t s -> viewed t vw -> target s hash x -> wread2 vw f f hash = Ok x.
Proof.
  intros (s0 & s' & IA & H0 & HM & RH & HF & SZ) T (s1 & V1 & ->) (l & L1 & L2). rewrite (table_same t s' s0 s H0 RH T) in *.
  assert (s1 = s0) by congruence. subst s1. destruct (held_facts t s0 s' IA H0 RH HM) as (F1 & F2 & _). rewrite <- F1, <- F2.
  apply (holds_read f f (d_own t) s' s'); auto. unfold read2. rewrite (proj2 (aget_ok _ _ _ _) L1). cbn [obind].
  destruct L2 as [(L2 & ->)|(L2 & L3)]; [destruct (l >=? 0) eqn:E; [lia|reflexivity]|]. destruct (l >=? 0) eqn:E; [|lia]. apply aget_ok. exact L3.
Qed.
(** A table has a target for every hash. *)
Lemma held_target f t hash : held f t -> 0 <= hash -> exists s x, table_of t s /\ target s hash x.
Proof.
  intros (s0 & s & IA & H0 & HM & RH & HF & SZ) HH. assert (R : reached (d_m t) (d_n t) (d_rand t) (d_cmds t) s) by (exists s0; auto).
  destruct (slots_active _ _ _ _ _ IA R) as (L & A & B). destruct (held_facts t s0 s IA H0 RH HM) as (_ & _ & _ & MB & _).
  assert (RG : 0 <= hash mod mM s < mM s) by (apply Z.mod_pos_bound; lia). exists s.
  destruct (znth_in_range _ (mlookup s) (hash mod mM s)) as (l & Hl); [lia|].
  destruct (Z_lt_dec l 0) as [N|N]; [exists l; split; [exact R|]; exists l; auto|].
  destruct (existsb (fun fw => 0 <=? fw) (mactive s)) eqn:E.
  - apply existsb_exists in E. destruct E as (fw & I & P). apply In_znth in I. destruct I as (j & J).
    assert (EX : exists j, is_active s j) by (exists j, fw; split; [exact J|lia]).
    destruct (A EX _ RG) as (i & I1 & y & I2 & I3). assert (i = l) by congruence. subst i.
    exists y. split; [exact R|]. exists l. split; [exact Hl|]. right. split; [lia|exact I2].
  - exfalso. assert (N2 : forall j, ~ is_active s j).
    { intros j (fw & J1 & J2). apply znth_In in J1. rewrite (proj2 (existsb_exists _ _)) in E; [discriminate|]. exists fw. split; [exact J1|lia]. }
    rewrite (B N2 _ RG) in Hl. injection Hl as <-. lia.
Qed.

(** ** init *)
Lemma size_prime m p : 0 <= m < 2 ^ 32 -> size_of m p -> p <= 65536 -> (if m <? 3 then Ok 3 else primeBelow m) = Ok p.
Proof.
  intros HM (P1 & P2 & P3) PB. assert (P994 : prime 993997).
  { destruct (primeBelow_correct 994009) as (q & Q1 & Q2 & _); [lia|]. assert (primeBelow 994009 = Ok 993997) by (vm_compute; reflexivity). assert (q = 993997) by congruence. subst. exact Q2. }
  assert (MB : Z.max m 3 < 993997). { destruct (Z_lt_dec (Z.max m 3) 993997) as [L|L]; [exact L|]. pose proof (P3 993997 P994 ltac:(lia)). lia. }
  destruct (m <? 3) eqn:E.
  - f_equal. rewrite Z.max_r in * by lia. pose proof (P3 3 prime_3 ltac:(lia)). lia.
  - rewrite Z.max_l in * by lia. destruct (primeBelow_correct m) as (q & Q1 & Q2 & Q3 & Q4); [lia|]. rewrite Q1. f_equal.
    rewrite Z.min_l in * by lia. pose proof (P3 q Q2 Q3). pose proof (Q4 p P1 P2). lia.
Qed.

Lemma held_init e own m n p : 0 <= m < 2 ^ 31 -> 0 <= n < 2 ^ 31 -> int32 own -> size_of m p -> n <= p -> fits e p n ->
  exists f, initShm own p n (ie_garbage e) (ie_writes e) (ie_rand e) = Ok (f, true) /\ held f (mkMade own m n (ie_rand e) []).
Proof.
  intros HM HN OI SO NP (PB & B1 & B2 & WR & RD). pose proof (size_prime m p ltac:(lia) SO PB) as EP.
  assert (IA : init_args m n (ie_rand e)) by (split; [lia|split; [lia|exact RD]]).
  assert (EQ : primeBelow (Z.max m 3) = Ok p).
  { destruct (m <? 3) eqn:E; [|rewrite Z.max_l by lia; exact EP]. rewrite Z.max_r by lia. injection EP as <-. vm_compute. reflexivity. }
  destruct (layout_accept m n (ie_rand e) p IA EQ NP) as (s & H & EM & EN). { unfold bytes in B1. lia. }
  assert (FS : file_size s = bytes p n) by (unfold file_size, bytes; rewrite EM, EN; reflexivity).
  destruct (init_file own m n (ie_garbage e) (ie_rand e) s IA H OI ltac:(lia) ltac:(lia)) as (f & HF & SZ & A). destruct (A (ie_writes e)) as (_ & A2).
  rewrite FS in A2. specialize (A2 WR). unfold winitCmd in A2. rewrite EP in A2. cbn [obind] in A2. destruct (n >? p) eqn:E; [lia|].
  exists f. split; [exact A2|]. exists s, s. cbn [d_own d_m d_n d_rand d_cmds run_hist]. split; [exact IA|]. split; [exact H|]. split; [lia|]. split; [reflexivity|]. split; assumption.
Qed.
