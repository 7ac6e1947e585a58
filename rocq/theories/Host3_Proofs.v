(** The host (C79): what the program has, and what it should have; lines on tables, starts. *)
From Coq Require Import String.
From Verif Require Import Base Lists Cstr_Model Util_Proofs Flow2_Proofs Maglev_Model Flow_Model Flow_Spec Remote_Model FlowLb_Model FlowLb_Spec FlowLb_Proofs Requests_Spec Requests_Proofs Lb_Model Lb_Spec
  Start_Model Start_Spec Start_Proofs Host_Proofs Lines_Model Lines_Spec Lines_Proofs Host_Model Host_Spec Host2_Proofs Opt_Model Opt_Spec.
From Verif Require Lines2_Proofs Frag_Model.

(** ** The relation *)
(** The companion of a flow with --udpencap *)
Definition comp (F : Host_Spec.flows) (n : chars) : option fargs :=
  match n with
  | k :: m => if k =? 35 then match F m with Some (c, _) => if c_udpencap c =? 0 then None else Some (udpArgs c m) | None => None end else None
  | [] => None
  end.
Lemma comp_some F n x : comp F n = Some x -> exists m c r, n = 35 :: m /\ F m = Some (c, r) /\ c_udpencap c <> 0 /\ x = udpArgs c m.
Proof.
  unfold comp. intros H. destruct n as [|k m]; [discriminate|]. destruct (Z.eqb_spec k 35) as [->|NE]; [|discriminate].
  destruct (F m) as [[c r]|] eqn:E; [|discriminate]. destruct (Z.eqb_spec (c_udpencap c) 0); [discriminate|]. injection H as <-. exists m, c, r. auto.
Qed.
Lemma comp_at F m : comp F (35 :: m) = match F m with Some (c, _) => if c_udpencap c =? 0 then None else Some (udpArgs c m) | None => None end.
Proof. reflexivity. Qed.
Lemma comp_own F n : own_name n -> comp F n = None.
Proof. intros O. destruct (comp F n) as [x|] eqn:E; [|reflexivity]. apply comp_some in E. destruct E as (m & _ & _ & -> & _). destruct (O m eq_refl). Qed.
Lemma comp_ext F F' n : (forall m, n = 35 :: m -> match F m, F' m with None, None => True | Some (c, _), Some (c', _) => c' = c | _, _ => False end) -> comp F' n = comp F n.
Proof.
  intros H. destruct n as [|k m]; [reflexivity|]. destruct (Z.eq_dec k 35) as [->|NE].
  - rewrite !comp_at. specialize (H m eq_refl). destruct (F m) as [[c r]|], (F' m) as [[c' r']|]; try contradiction; [subst c'; reflexivity|reflexivity].
  - rewrite !comp_own; [reflexivity| |]; intros r E; congruence.
Qed.
Definition flow_rel (L : libc) (rd : Z -> reader) (next : Z) (s : state) (n : chars) (e : option (flowcmd * reader)) (u x : option fargs) : Prop :=
  match e with
  | None => x = u
  | Some (c, r) => exists t a g, x = Some (cmdArgs c n a) /\ good_request L c n t /\ 0 <= c_udpencap c < 65536 /\ there s t a g /\ g < next /\ rd g = r
  end.
Definition job_rel (rd : Z -> reader) (next bound : Z) (j : job) (v : server) : Prop :=
  match j, v with
  | JLb c s, SLb m no en r => h_mode (l_h c) = m /\ h_notargets (l_h c) = no /\ l_encap c = en /\ l_target c < next /\ rd (l_target c) = r
  | JFlow h s, SFlow m no b L F => h_mode h = m /\ h_notargets h = no /\ h_nolb h = b /\ h_lib h = L /\ libc_ok L /\ zlen (t_set s) <= 2 * bound /\
      exists nw, calm L s nw /\ forall n, flow_rel L rd next s n (F n) (comp F n) (nw n)
  | _, _ => False
  end.
Definition procs_rel (rd : Z -> reader) (next bound : Z) (p : Z -> option job) (v : Z -> option server) : Prop :=
  forall k, match p k, v k with None, None => True | Some j, Some v => job_rel rd next bound j v | _, _ => False end.
Definition tier_conf (j : job) : option (Z * Z) := match j with JLb c _ => h_tier (l_h c) | JFlow h _ => h_tier h end.
Definition tier_rel (rd : Z -> reader) (next : Z) (c : option (Z * Z)) (v : option (reader * Z)) : Prop :=
  match c, v with
  | None, None => True
  | Some (g, own), Some (r, own') => g < next /\ rd g = r /\ own = own'
  | _, _ => False
  end.
Definition tiers_rel (rd : Z -> reader) (next : Z) (p : Z -> option job) (v : Z -> option (reader * Z)) : Prop :=
  forall k, match p k with None => True | Some j => tier_rel rd next (tier_conf j) (v k) end.
Definition rel (bound : Z) (o : host) (g : site) : Prop :=
  exists rd, Lines2_Proofs.inv (o_fs o) (mkW (g_tab g) rd) /\ procs_rel rd (o_next o) bound (o_proc o) (g_srv g) /\ tiers_rel rd (o_next o) (o_proc o) (g_tier g).

Lemma tiers_mono rd rd' next next' p v : (forall g, g < next -> rd' g = rd g) -> next <= next' -> tiers_rel rd next p v -> tiers_rel rd' next' p v.
Proof.
  intros E N H k. specialize (H k). destruct (p k) as [j|]; [|exact Logic.I]. unfold tier_rel in *. destruct (tier_conf j) as [[g own]|], (v k) as [[r own']|]; try exact H.
  destruct H as (H1 & H2 & H3). rewrite (E g H1). split; [lia|auto].
Qed.
Lemma tiers_set rd next p v k j ti : tiers_rel rd next p v -> match j with None => True | Some j => tier_rel rd next (tier_conf j) ti end ->
  tiers_rel rd next (setProc p k j) (at_k v k ti).
Proof. intros H J i. unfold setProc, at_k. destruct (i =? k); [exact J|apply H]. Qed.
(** The process goes on with the same options. *)
Lemma tiers_keep rd next p v k j j' : tiers_rel rd next p v -> p k = Some j -> tier_conf j' = tier_conf j -> tiers_rel rd next (setProc p k (Some j')) v.
Proof.
  intros H K E i. unfold setProc. destruct (Z.eqb_spec i k) as [->|]; [|apply H]. specialize (H k). rewrite K in H. rewrite E. exact H.
Qed.
Lemma tiers_changed rd next f p v : tiers_rel rd next p v -> tiers_rel (fun k => f (rd k)) next p (fun k => changed_tier f (v k)).
Proof.
  intros H k. specialize (H k). destruct (p k) as [j|]; [|exact Logic.I]. unfold tier_rel, changed_tier in *. destruct (tier_conf j) as [[g own]|], (v k) as [[r own']|]; try exact H.
  destruct H as (H1 & <- & H3). auto.
Qed.

Lemma job_mono rd rd' next next' b b' j v : (forall g, g < next -> rd' g = rd g) -> next <= next' -> b <= b' -> job_rel rd next b j v -> job_rel rd' next' b' j v.
Proof.
  intros E N B. destruct j as [c s|h s], v as [m no en r|m no nl L F]; cbn [job_rel]; try tauto.
  - intros (H1 & H2 & H3 & H4 & H5). rewrite (E _ H4). repeat (split; [assumption|]). split; [lia|assumption].
  - intros (H1 & H2 & H3 & H4 & H5 & H6 & nw & H7 & H8). repeat (split; [assumption|]). split; [lia|]. exists nw. split; [assumption|].
    intros n. specialize (H8 n). unfold flow_rel in *. destruct (F n) as [[c r]|]; [|assumption]. destruct H8 as (t & a & g & A1 & A2 & A3 & A4 & A5 & A6).
    exists t, a, g. rewrite (E _ A5). repeat (split; [assumption|]). split; [lia|assumption].
Qed.
Lemma procs_mono rd rd' next next' b b' p v : (forall g, g < next -> rd' g = rd g) -> next <= next' -> b <= b' -> procs_rel rd next b p v -> procs_rel rd' next' b' p v.
Proof.
  intros E N B H k. specialize (H k). destruct (p k), (v k); auto. eapply job_mono; eauto.
Qed.
Lemma procs_set rd next b p v k j s : procs_rel rd next b p v -> match j, s with None, None => True | Some j, Some s => job_rel rd next b j s | _, _ => False end ->
  procs_rel rd next b (setProc p k j) (at_k v k s).
Proof. intros H J i. unfold setProc, at_k. destruct (i =? k); [exact J|apply H]. Qed.
Lemma rel_start b : 0 <= b -> rel b noHost nothing.
Proof. intros B. exists (fun _ => Nobody). split; [exact Lines2_Proofs.inv_start|]. split; intros k; exact I. Qed.
Lemma procs_same rd next b p v k s : procs_rel rd next b p v -> match p k, s with None, None => True | Some j, Some s => job_rel rd next b j s | _, _ => False end ->
  procs_rel rd next b p (at_k v k s).
Proof. intros H J i. unfold at_k. destruct (i =? k) eqn:E; [apply Z.eqb_eq in E; subst i; exact J|apply H]. Qed.

(** ** Lines on tables *)
Lemma job_changed rd next b f j v : job_rel rd next b j v -> job_rel (fun k => f (rd k)) next b j (changed f v).
Proof.
  destruct j as [c s|h s], v as [m no en r|m no nl L F]; cbn [job_rel changed]; try tauto.
  - intros (H1 & H2 & H3 & H4 & H5). rewrite H5. auto.
  - intros (H1 & H2 & H3 & H4 & H5 & H6 & nw & H7 & H8). repeat (split; [assumption|]). exists nw. split; [assumption|].
    assert (CE : forall n, comp (fun x => match F x with Some (c, t) => Some (c, f t) | None => None end) n = comp F n).
    { intros n. apply comp_ext. intros q _. destruct (F q) as [[c r]|]; auto. }
    intros n. rewrite CE. specialize (H8 n). unfold flow_rel in *. destruct (F n) as [[c r]|]; [|assumption]. destruct H8 as (t & a & g & A1 & A2 & A3 & A4 & A5 & A6).
    exists t, a, g. rewrite A6. auto 10.
Qed.
Lemma step_table b o g e ws r tab' f st out : rel b o g -> asks ws r -> changes (g_tab g) e r tab' f st out ->
  exists o', odo o (OTable e ws) = Ok (o', Ended st out) /\
    rel b o' (mkSite tab' (fun k => match g_srv g k with Some v => Some (changed f v) | None => None end) (fun k => changed_tier f (g_tier g k))).
Proof.
  intros (rd & I & P & TP) A C. destruct (Lines2_Proofs.one_event (o_fs o) (mkW (g_tab g) rd) (ELine e ws) (VLine e r) _ _ I (conj eq_refl A) (C rd)) as (fs & E & I').
  cbn [hdo] in E. destruct (exec e (o_fs o) ws) as [[[fs1 st1] out1]| | |] eqn:X; try discriminate. cbn [obind] in E. injection E as <- <- <-.
  cbn [odo]. rewrite X. cbn [obind]. eexists. split; [reflexivity|]. exists (fun k => f (rd k)). cbn [o_fs o_next o_proc g_tab g_srv g_tier]. split; [exact I'|]. split; [|apply tiers_changed; exact TP].
  intros k. specialize (P k). destruct (o_proc o k), (g_srv g k); auto. apply job_changed. exact P.
Qed.

(** ** Starts *)
Lemma tier_value opts its w : says opts its w -> value_of opts its "lbshm" (w_tier w).
Proof. intros (_ & _ & _ & _ & _ & _ & _ & _ & _ & _ & _ & _ & V). exact V. Qed.
Definition tier_found (tab : chars -> option made) (region : chars -> Z) (w : wanted) (ti : option (reader * Z)) (tr : option (Z * Z)) : Prop :=
  match w_tier w with
  | None => ti = None /\ tr = None
  | Some n => exists x t, object n x /\ tab x = Some t /\ ti = Some (Live x, d_own t) /\ tr = Some (region n, d_own t)
  end.
Lemma tier_there_of fs tab rd region D w ti : Lines2_Proofs.inv fs (mkW tab rd) -> tier_is tab w ti -> exists tr, tier_of (envOf fs region D) w tr /\ tier_found tab region w ti tr.
Proof.
  intros I T. unfold tier_is, tier_of, tier_found in *. destruct (w_tier w) as [n|]; [|eauto]. destruct T as (x & t & O & TX & ->).
  pose proof (seen_some fs tab rd region n x t I O TX) as S. exists (Some (region n, d_own t)). split; [eexists; split; [exact S|reflexivity]|]. exists x, t. auto.
Qed.
Lemma tab_at_some tab n x t : object n x -> tab x = Some t -> tab_at tab (Some n) = Some (Live x).
Proof. intros O T. apply name_object in O. cbn [tab_at]. rewrite O, T. reflexivity. Qed.
Lemma tier_gone_of fs tab rd region D w : Lines2_Proofs.inv fs (mkW tab rd) -> tier_gone tab w -> tierOf (envOf fs region D) (w_tier w) = None.
Proof.
  intros I T. unfold tier_gone, tierOf in *. destruct (w_tier w) as [n|]; [|destruct T]. destruct T as (x & O & X). cbn [e_shm envOf].
  rewrite (seen_none fs tab rd region n I); [reflexivity|]. intros y Y. rewrite <- (object_fun _ _ _ O Y). exact X.
Qed.
Lemma above (rd : Z -> reader) k v g : g < k -> at_proc rd k v g = rd g.
Proof. intros H. unfold at_proc. replace (g =? k) with false by lia. reflexivity. Qed.
Lemma above_opt (rd : Z -> reader) k (v : option reader) g : g < k -> (match v with None => rd | Some v => at_proc rd k v end) g = rd g.
Proof. intros H. destruct v; [apply above; exact H|reflexivity]. Qed.

Lemma step_lb b o g k D its tail w en tn x t ti : rel b o g ->
  Forall (item_ok lbOpts) its -> says lbOpts its w -> number lbOpts its "sctp_encap" en ->
  value_of lbOpts its "tshm" (Some tn) -> object tn x -> allowed D w -> 0 <= en < 65536 -> g_tab g x = Some t -> tier_is (g_tab g) w ti ->
  exists o', odo o (OStart k D (str "lb" :: line its tail)) = Ok (o', Started true) /\
    rel b o' (mkSite (g_tab g) (at_k (g_srv g) k (Some (SLb (w_mode w) (w_notargets w) en (Live x)))) (at_k (g_tier g) k ti)).
Proof.
  intros (rd & I & P & TP) F S N V O (SE & US) EN T TT. cbn [odo]. rewrite streq_refl. unfold startLb. destruct lb_table as [TO RQ].
  rewrite (value_at lbOpts its tail 5 _ "tshm" _ TO F RQ eq_refl eq_refl V), (value_at lbOpts its tail 6 _ "lbshm" _ TO F RQ eq_refl eq_refl (tier_value _ _ _ S)).
  destruct (mapped_some (o_fs o) (g_tab g) rd (o_next o) tn x t I O T) as (f1 & -> & I1 & _). cbn [obind].
  destruct (mapped_any f1 (g_tab g) _ (o_next o + 1) (w_tier w) I1) as (f2 & -> & I2 & _). cbn [obind].
  set (region := fun n => if is (Some tn) n then o_next o else o_next o + 1).
  pose proof (seen_some (o_fs o) (g_tab g) rd region tn x t I O T) as SN.
  assert (RN : region tn = o_next o) by (unfold region; cbn [is]; rewrite streq_refl; reflexivity). rewrite RN in SN.
  destruct (tier_there_of (o_fs o) (g_tab g) rd region D w ti I TT) as (tr & TR & TF).
  destruct (lb_line (envOf (o_fs o) region D) k its tail w en tn (o_next o) (d_own t) tr F S N V SN TR SE US EN) as (qs & EL & _).
  rewrite EL. cbn [obind snd fst]. eexists. split; [reflexivity|]. eexists. split; [exact I2|]. cbn [o_next o_proc g_srv].
  assert (AB : forall r, r < o_next o -> (match tab_at (g_tab g) (w_tier w) with Some v => at_proc (at_proc rd (o_next o) (Live x)) (o_next o + 1) v | None => at_proc rd (o_next o) (Live x) end) r = rd r)
    by (intros r R; rewrite above_opt by lia; apply above; exact R).
  split; [apply procs_set|apply tiers_set].
  - apply (procs_mono rd _ (o_next o) _ b); [exact AB|lia|lia|exact P].
  - cbn [job_rel l_h h_mode h_notargets l_encap l_target]. repeat (split; [reflexivity|]). split; [lia|]. rewrite above_opt by lia. unfold at_proc. rewrite Z.eqb_refl. reflexivity.
  - apply (tiers_mono rd _ (o_next o)); [exact AB|lia|exact TP].
  - cbn [tier_conf l_h h_tier]. unfold tier_found in TF. destruct (w_tier w) as [m|]; [|destruct TF as [-> ->]; exact Logic.I].
    destruct TF as (y & d & OY & TY & -> & ->). cbn [tier_rel]. rewrite (tab_at_some _ _ _ _ OY TY). unfold region. cbn [is]. destruct (streq m tn) eqn:EQ.
    + apply streq_eq in EQ. subst m. rewrite ?streq_refl, (object_fun _ _ _ OY O). split; [lia|]. split; [|reflexivity]. rewrite above by lia. unfold at_proc. rewrite Z.eqb_refl. reflexivity.
    + split; [lia|]. split; [|reflexivity]. unfold at_proc at 1. rewrite Z.eqb_refl. reflexivity.
Qed.
Lemma step_lb_no b o g k D its tail w tn x : rel b o g ->
  Forall (item_ok lbOpts) its -> says lbOpts its w -> value_of lbOpts its "tshm" (Some tn) -> object tn x -> g_tab g x = None \/ tier_gone (g_tab g) w ->
  exists o', odo o (OStart k D (str "lb" :: line its tail)) = Ok (o', Started false) /\ rel b o' (mkSite (g_tab g) (at_k (g_srv g) k None) (at_k (g_tier g) k None)).
Proof.
  intros (rd & I & P & TP) F S V O T. cbn [odo]. rewrite streq_refl. unfold startLb. destruct lb_table as [TO RQ].
  rewrite (value_at lbOpts its tail 5 _ "tshm" _ TO F RQ eq_refl eq_refl V), (value_at lbOpts its tail 6 _ "lbshm" _ TO F RQ eq_refl eq_refl (tier_value _ _ _ S)).
  destruct (mapped_any (o_fs o) (g_tab g) rd (o_next o) (Some tn) I) as (f1 & -> & I1 & _). cbn [obind].
  destruct (mapped_any f1 (g_tab g) _ (o_next o + 1) (w_tier w) I1) as (f2 & -> & I2 & _). cbn [obind].
  set (region := fun n => if is (Some tn) n then o_next o else o_next o + 1).
  rewrite (lb_no (envOf (o_fs o) region D) k its tail tn (w_tier w) F V (tier_value _ _ _ S)).
  2:{ destruct T as [T|T]; [left|right; exact (tier_gone_of _ _ rd region D w I T)]. cbn [e_shm envOf]. apply (seen_none (o_fs o) (g_tab g) rd region tn I).
      intros y Y. rewrite <- (object_fun _ _ _ O Y). exact T. }
  cbn [obind snd fst]. eexists. split; [reflexivity|]. exists rd. split; [exact I|]. cbn [o_next o_proc g_srv]. split; [apply procs_set; [exact P|exact Logic.I]|apply tiers_set; [exact TP|exact Logic.I]].
Qed.
Lemma fresh_deref h a : deref (freshState h) a = None.
Proof. unfold deref, freshState. cbn [t_objs]. rewrite znth_out; [reflexivity|]. change (zlen (@nil lbo)) with 0. lia. Qed.
Lemma fresh_calm L h : calm L (freshState h) (fun _ => None).
Proof.
  constructor.
  - assert (LV : forall a, ~ live (freshState h) a) by (intros a (o & D); rewrite fresh_deref in D; discriminate).
    constructor; cbn [freshState t_set t_list].
    + intros a o D. rewrite fresh_deref in D. discriminate.
    + intros a _ H. exfalso. unfold refs, countb in H. cbn in H. lia.
    + intros a H. destruct (LV a H).
    + intros a H. exfalso. unfold countb in H. cbn in H. lia.
    + intros a. split; [intros []|intros (H & _); destruct (LV a H)].
    + constructor.
    + constructor; [constructor| | |]; intros f [].
  - apply stands_nil.
  - intros a c x y A. rewrite fresh_deref in A. discriminate.
  - split; [intros f []|intros f []].
Qed.
Lemma step_flowlb b o g k D its tail w nolb ping ti : 0 <= b -> rel b o g ->
  Forall (item_ok flowlbOpts) its -> says flowlbOpts its w -> number flowlbOpts its "nolb_fwmark" nolb -> value_of flowlbOpts its "promiscuous_ping" ping ->
  allowed D w -> libc_ok (dv_lib D) -> tier_is (g_tab g) w ti ->
  exists o', odo o (OStart k D (str "flowlb" :: line its tail)) = Ok (o', Started true) /\
    rel b o' (mkSite (g_tab g) (at_k (g_srv g) k (with_flows (w_mode w) (w_notargets w) nolb (dv_lib D) (fun _ => None))) (at_k (g_tier g) k ti)).
Proof.
  intros B (rd & I & P & TP) F S N V (SE & US) HL TT. cbn [odo]. change (streq (str "flowlb") (str "lb")) with false. rewrite streq_refl. cbv iota. unfold startFlowLb. destruct flowlb_table as [TO RQ].
  rewrite (value_at flowlbOpts its tail 1 _ "lbshm" _ TO F RQ eq_refl eq_refl (tier_value _ _ _ S)).
  destruct (mapped_any (o_fs o) (g_tab g) rd (o_next o) (w_tier w) I) as (f1 & -> & I1 & _). cbn [obind].
  destruct (tier_there_of (o_fs o) (g_tab g) rd (fun _ => o_next o) D w ti I TT) as (tr & TR & TF).
  destruct (flowlb_line (envOf (o_fs o) (fun _ => o_next o) D) k its tail w nolb ping tr F S N V TR SE US) as (qs & EL & _).
  rewrite EL. cbn [obind snd fst]. eexists. split; [reflexivity|]. eexists. split; [exact I1|]. cbn [o_next o_proc g_srv].
  split; [apply procs_set|apply tiers_set].
  - apply (procs_mono rd _ (o_next o) _ b); [|lia|lia|exact P]. intros r R. apply above_opt. exact R.
  - cbn [with_flows job_rel h_mode h_notargets h_nolb h_lib e_lib envOf]. repeat (split; [reflexivity|]). split; [exact HL|]. split; [change (zlen (@nil frec) <= 2 * b); change (zlen (@nil frec)) with 0; lia|].
    exists (fun _ => None). split; [apply fresh_calm|]. intros n. cbn [flow_rel]. unfold comp. destruct n as [|q n]; [reflexivity|]. destruct (q =? 35); reflexivity.
  - apply (tiers_mono rd _ (o_next o)); [|lia|exact TP]. intros r R. apply above_opt. exact R.
  - cbn [tier_conf h_tier]. unfold tier_found in TF. destruct (w_tier w) as [m|]; [|destruct TF as [-> ->]; exact Logic.I].
    destruct TF as (y & d & OY & TY & -> & ->). cbn [tier_rel]. rewrite (tab_at_some _ _ _ _ OY TY).
    split; [lia|]. split; [|reflexivity]. unfold at_proc at 1. rewrite Z.eqb_refl. reflexivity.
Qed.
Lemma step_flowlb_no b o g k D its tail w : rel b o g -> Forall (item_ok flowlbOpts) its -> says flowlbOpts its w -> tier_gone (g_tab g) w ->
  exists o', odo o (OStart k D (str "flowlb" :: line its tail)) = Ok (o', Started false) /\ rel b o' (mkSite (g_tab g) (at_k (g_srv g) k None) (at_k (g_tier g) k None)).
Proof.
  intros (rd & I & P & TP) F S T. cbn [odo]. change (streq (str "flowlb") (str "lb")) with false. rewrite streq_refl. cbv iota. unfold startFlowLb. destruct flowlb_table as [TO RQ].
  rewrite (value_at flowlbOpts its tail 1 _ "lbshm" _ TO F RQ eq_refl eq_refl (tier_value _ _ _ S)).
  destruct (mapped_any (o_fs o) (g_tab g) rd (o_next o) (w_tier w) I) as (f1 & -> & I1 & _). cbn [obind].
  rewrite (flowlb_no (envOf (o_fs o) (fun _ => o_next o) D) k its tail (w_tier w) F (tier_value _ _ _ S)).
  2:{ exact (tier_gone_of _ _ rd (fun _ => o_next o) D w I T). }
  cbn [obind snd fst]. eexists. split; [reflexivity|]. exists rd. split; [exact I|]. cbn [o_next o_proc g_srv]. split; [apply procs_set; [exact P|exact Logic.I]|apply tiers_set; [exact TP|exact Logic.I]].
Qed.
