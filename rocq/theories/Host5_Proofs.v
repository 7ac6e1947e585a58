(** The host (C79): packets, and all events. *)
From Coq Require Import String.
From Verif Require Import Base Lists Cstr_Model IpKey_Model IpKey_Spec Match_Spec Util_Proofs Flow2_Proofs Maglev_Model Flow_Model Flow_Spec Remote_Model Nfq_Model FlowLb_Model FlowLb_Spec Fwmark_Spec IpKey2_Proofs  Fwmark2_Proofs FlowLb_Proofs FlowLb2_Proofs Lb_Model Lb_Spec Lb3_Proofs Requests_Spec
  Client_Spec Start_Model Start_Spec Host_Proofs Lines_Model Lines_Spec Host_Model Host_Spec Host2_Proofs Host3_Proofs Host4_Proofs Wrap_Proofs Opt_Model Opt_Spec.
From Verif Require Lines_Proofs Lines2_Proofs Frag_Model.

Lemma job_now rd next b o j v : job_rel rd next b j v -> job_rel rd next b (match j with JLb c s => JLb c (now o s) | JFlow h s => JFlow h (now o s) end) v.
Proof.
  destruct j as [c s|h s], v as [m no en r|m no nl L F]; cbn [job_rel]; try tauto.
  intros (H1 & H2 & H3 & H4 & H5 & H6 & nw & H7 & H8). repeat (split; [assumption|]). exists nw. split; [apply calm_now; exact H7|exact H8].
Qed.
Lemma procs_now rd next b p v k j s : procs_rel rd next b p v -> v k = Some s -> job_rel rd next b j s -> procs_rel rd next b (setProc p k (Some j)) v.
Proof. intros H V J i. unfold setProc. destruct (i =? k) eqn:E; [|apply H]. apply Z.eqb_eq in E. subst i. rewrite V. exact J. Qed.

(** The fragment tables are as before. *)
Definition job_st (j : job) : state := match j with JLb _ s => s | JFlow _ s => s end.
Definition same_ft (o o' : host) : Prop := forall k j, o_proc o k = Some j -> exists j', o_proc o' k = Some j' /\ t_ft (job_st j') = t_ft (job_st j).
Lemma same_set o k j j' : o_proc o k = Some j -> t_ft (job_st j') = t_ft (job_st j) -> same_ft o (mkHost (o_fs o) (o_next o) (setProc (o_proc o) k (Some j'))).
Proof.
  intros H E i x X. cbn [o_proc]. unfold setProc. destruct (i =? k) eqn:Q; [|eauto]. apply Z.eqb_eq in Q. subst i. exists j'. split; [reflexivity|]. congruence.
Qed.

Lemma step_packet_lb b o g k nw done eth data m no en r f s v : rel b o g -> g_srv g k = Some (SLb m no en r) -> flow_ok f ->
  flow_packet eth data f /\ (fl_proto f = 17 -> en <> 0 -> port_num (fl_dport f) <> en) \/ en <> 0 /\ encap_packet eth data en f ->
  has_table (g_tab g) r s -> marks no s (flow_hash m f) v ->
  exists o', odo o (OPacket k nw done eth data) = Ok (o', Marked v) /\ rel b o' g /\ same_ft o o'.
Proof.
  intros (rd & I & P & TP) V FO FP HT MK. pose proof (P k) as PK. rewrite V in PK. cbn [odo]. unfold onPacket. destruct (o_proc o k) as [[c st|h st]|] eqn:OK; try contradiction.
  pose proof (job_now _ _ _ o _ _ PK) as JN. cbv iota beta in JN. destruct PK as (H1 & H2 & H3 & H4 & H5).
  destruct (region_table (o_fs o) (g_tab g) rd (l_target c) s I) as (RT & TO); [rewrite H5; exact HT|].
  rewrite (lb_served c nw done eth data f (now o st) FO) by (subst en; auto). cbn [now set_env t_mem].
  rewrite RT, H1, H2, (bare_marks no s _ v MK). eexists. split; [reflexivity|]. split; [|eapply same_set; [exact OK|reflexivity]]. exists rd. split; [exact I|]. cbn [o_next o_proc].
  split; [eapply procs_now; eauto|]. eapply tiers_keep; [exact TP|exact OK|reflexivity].
Qed.

(** ** The rules of flows and companions *)
Definition comp_rule (u : Z) (r : rule) : rule := mkRule (Some [17]) (Some [(u, u)]) None (r_dsts r) (r_srcs r) None.
Definition all_rules (F : Host_Spec.flows) (R : chars -> rule) (n : chars) : rule :=
  match n with
  | k :: m => if k =? 35 then match F m with Some (c, _) => if c_udpencap c =? 0 then R n else comp_rule (c_udpencap c) (R m) | None => R n end else R n
  | [] => R n
  end.
Lemma rules_own F R n : own_name n -> all_rules F R n = R n.
Proof. intros O. destruct n as [|k m]; [reflexivity|]. cbn [all_rules]. destruct (Z.eqb_spec k 35) as [->|]; [destruct (O m eq_refl)|reflexivity]. Qed.
Lemma rules_comp F R m c r : F m = Some (c, r) -> c_udpencap c <> 0 -> all_rules F R (35 :: m) = comp_rule (c_udpencap c) (R m).
Proof. intros H U. cbn [all_rules]. change (35 =? 35) with true. cbv iota. rewrite H. destruct (Z.eqb_spec (c_udpencap c) 0); [contradiction|reflexivity]. Qed.
Lemma comp_means L c n r : means L (cmdArgs c n 0) r -> zlen n <= 1000 -> 0 < c_udpencap c < 65536 -> means L (udpArgs c n) (comp_rule (c_udpencap c) r).
Proof.
  intros (M1 & M2 & M3 & M4 & M5 & M6 & M7) N U. cbn [cmdArgs a_name a_dsts a_srcs] in *.
  split; [cbn [udpArgs a_name]; unfold zlen in *; cbn [length]; lia|].
  split; [|split; [|split; [|split; [|split]]]]; cbn [udpArgs a_protocols a_dports a_sports a_dsts a_srcs a_match comp_rule
    r_protocols r_dports r_sports r_dsts r_srcs r_match given]; auto.
  - constructor; [|constructor]. exists (str "udp"). split; [|right; right; auto].
    unfold any_case. cbn. repeat constructor; left; reflexivity.
  - apply port_text. auto.
  - exact Logic.I.
  - exact Logic.I.
Qed.
Lemma comp_accepts u r f data l4 : accepts_packet (comp_rule u r) f data l4 <-> fl_proto f = 17 /\ port_num (fl_dport f) = u /\ accepts_addr r (fl_src f) (fl_dst f).
Proof.
  unfold accepts_packet, comp_rule. cbn [r_protocols r_dports r_sports r_match all_or]. change (accepts_addr _ (fl_src f) (fl_dst f)) with (accepts_addr r (fl_src f) (fl_dst f)). split.
  - intros (A & [P|[]] & (a & c & [E|[]] & D) & _). injection E as <- <-. split; [congruence|]. split; [lia|exact A].
  - intros (P & D & A). split; [exact A|]. split; [left; congruence|]. split; [|auto]. exists u, u. split; [left; reflexivity|lia].
Qed.
(** A flow with --udpencap is not for UDP packets. *)
Lemma sctp_alone L c n t r f data l4 : good_request L c n t -> means L (cmdArgs c n 0) r -> c_udpencap c <> 0 -> accepts_packet r f data l4 -> fl_proto f = 132.
Proof.
  intros (_ & _ & _ & _ & _ & _ & P) (_ & M & _) U (_ & A & _). destruct (P U) as (p & E & C). cbn [cmdArgs a_protocols] in M. rewrite E in M.
  destruct (r_protocols r) as [l|]; [|destruct M]. cbn [given all_or] in *. inversion M as [|x y l1 l2 G1 G2]; subst. inversion G2; subst. destruct A as [->|[]].
  destruct G1 as (w & T1 & T2). pose proof (Flow_Proofs.lower_case _ _ C ltac:(cbn; repeat constructor; lia)) as L1.
  destruct T2 as [(K & ->)|[(K & ->)|(K & ->)]]; [..]; try exact K; pose proof (Flow_Proofs.lower_case _ _ T1 ltac:(cbn; repeat constructor; lia)) as L2; rewrite L1 in L2; try discriminate L2; auto.
Qed.

(** The flows of the program *)
Section ServerFlows.
Context (L : libc) (rd : Z -> reader) (next : Z) (st : state) (F : Host_Spec.flows) (nw : chars -> option fargs) (ops : list op) (ans : list Flow_Spec.answer) (R : chars -> rule).
Context (FR : forall n, flow_rel L rd next st n (F n) (comp F n) (nw n)) (EN : nw = current ops ans) (RU : rules L F R).
Definition is_flow (n : chars) (a : fargs) : Prop := exists c r t a0 g0, F n = Some (c, r) /\ a = cmdArgs c n a0 /\ good_request L c n t /\
  0 <= c_udpencap c < 65536 /\ there st t a0 g0 /\ rd g0 = r /\ all_rules F R n = R n.
Definition is_comp (n : chars) (a : fargs) : Prop := exists q c r t, n = 35 :: q /\ F q = Some (c, r) /\ good_request L c q t /\
  0 < c_udpencap c < 65536 /\ a = udpArgs c q /\ all_rules F R n = comp_rule (c_udpencap c) (R q).
Lemma server_flows : (forall n a, current ops ans n = Some a -> is_flow n a \/ is_comp n a) /\
  (forall n c r, F n = Some (c, r) -> exists a0, current ops ans n = Some (cmdArgs c n a0) /\ a0 <> 0 /\ all_rules F R n = R n) /\
  (forall q c r, F q = Some (c, r) -> c_udpencap c <> 0 -> current ops ans (35 :: q) = Some (udpArgs c q) /\ all_rules F R (35 :: q) = comp_rule (c_udpencap c) (R q)) /\
  (forall n a, current ops ans n = Some a -> means L a (all_rules F R n)).
Proof.
  assert (CU : forall n a, current ops ans n = Some a -> is_flow n a \/ is_comp n a).
  { intros n a C. rewrite <- EN in C. pose proof (FR n) as FN. rewrite C in FN. destruct (F n) as [[c r]|] eqn:FF.
    - left. destruct FN as (t & a0 & g0 & E & G & U & T & _ & Q). exists c, r, t, a0, g0. injection E as ->. repeat (split; [auto|]). apply rules_own. apply G.
    - right. cbn [flow_rel] in FN. symmetry in FN. apply comp_some in FN. destruct FN as (q & c & r & -> & FQ & U & ->). pose proof (FR q) as FRQ. rewrite FQ in FRQ.
      destruct FRQ as (t & _ & _ & _ & G & UB & _). exists q, c, r, t. repeat (split; [auto; lia|]). apply (rules_comp F R q c r FQ U). }
  split; [exact CU|]. split; [|split].
  - intros n c r C. pose proof (FR n) as FN. rewrite C in FN. destruct FN as (t & a0 & g0 & E & G & _ & (ob & D & _) & _). exists a0. rewrite <- EN. split; [exact E|]. apply deref_len in D. split; [lia|]. apply rules_own. apply G.
  - intros q c r C U. split; [|exact (rules_comp F R q c r C U)]. rewrite <- EN. pose proof (FR (35 :: q)) as FN. destruct (F (35 :: q)) as [[c' r']|] eqn:FF.
    { destruct (known_own L rd next st F nw FR _ _ _ FF q eq_refl). }
    cbn [flow_rel] in FN. rewrite FN, comp_at, C. destruct (Z.eqb_spec (c_udpencap c) 0); [contradiction|reflexivity].
  - intros n a C. destruct (CU n a C) as [(c & r & t & a0 & g0 & E1 & -> & _ & _ & _ & _ & ->)|(q & c & r & t & -> & E1 & (_ & _ & _ & _ & ZN & _) & U & -> & ->)].
    + exact (RU n c r E1).
    + apply comp_means; auto. exact (RU q c r E1).
Qed.
(** UDP packets that are not for SCTP in UDP *)
Lemma no_udp f data l4 : ~ in_udp F R f -> fl_proto f = 17 -> port_num (fl_dport f) <> 0 -> forall n a, current ops ans n = Some a -> accepts_packet (all_rules F R n) f data l4 -> a_udpencap a <> port_num (fl_dport f).
Proof.
  intros NU E NZ n a C A. destruct (proj1 server_flows n a C) as [(c & r & t & a0 & g0 & E1 & -> & GR & U & _ & _ & ER)|(q & c & r & t & _ & E1 & _ & U & -> & ER)]; rewrite ER in A.
  - cbn [cmdArgs a_udpencap]. intros X. assert (U0 : c_udpencap c <> 0) by (rewrite X; auto). pose proof (sctp_alone L c n t (R n) f data l4 GR (RU n c r E1) U0 A). congruence.
  - exfalso. apply NU. apply comp_accepts in A. destruct A as (A1 & A2 & A3). exists q, c, r. repeat (split; [auto; lia|]). exact A3.
Qed.
End ServerFlows.

Section FlowPacket.
Context (b : Z) (o : host) (g : site) (k nwt : Z) (done : bool) (eth : Z) (data : list Z) (m no nl : Z) (L : libc) (F : Host_Spec.flows) (R : chars -> rule) (f : flow) (l4 : Z).
Context (RL : rel b o g) (B : 2 * b + 5 < 2147483648) (V : g_srv g k = Some (SFlow m no nl L F)) (RU : rules L F R) (CA : carries F R eth data f l4)
  (TS : forall n c r, for_packet F R f data l4 n c r -> exists s', has_table (g_tab g) r s').
Lemma flow_packet_step : exists v, (exists o', odo o (OPacket k nwt done eth data) = Ok (o', Marked v) /\ rel b o' g /\ same_ft o o') /\
  ((exists n c r, for_packet F R f data l4 n c r /\ (forall n' c' r', for_packet F R f data l4 n' c' r' -> c_priority c' <= c_priority c) /\
     forall s x, has_table (g_tab g) r s -> marks no s (flow_hash m f) x -> v = x) \/
   v = nl /\ forall n c r, ~ for_packet F R f data l4 n c r).
Proof.
  destruct RL as (rd & I & P & TP). pose proof (P k) as PK. rewrite V in PK. cbn [odo]. unfold onPacket. destruct (o_proc o k) as [[c st|h st]|] eqn:OK; try contradiction.
  pose proof (job_now _ _ _ o _ _ PK) as JN. cbv iota beta in JN. destruct PK as (H1 & H2 & H3 & H4 & H5 & H6 & nw & CM & FR).
  pose proof CM as [IV (ops & ans & RN & EN) _ _].
  destruct (server_flows L rd (o_next o) st F nw ops ans R FR EN RU) as (CU & AF & AC & ME).
  assert (HO : forall l4, (forall n c r, for_packet F R f data l4 n c r -> exists s', has_table (g_tab g) r s') -> forall n a, current ops ans n = Some a -> a_ref a <> 0 -> accepts_packet (all_rules F R n) f data l4 ->
     exists ob, deref (now o st) (a_ref a) = Some ob /\ 1 <= lb_ref ob < 2147483647 /\ Lb_Spec.table_ok (t_mem (now o st) (lb_region ob))).
  { intros l TT n a C N A. destruct (CU n a C) as [(c & r & t & a0 & g0 & E1 & -> & _ & U & (ob & D & T & Q) & RR & ER)|(q & c & r & t & _ & _ & _ & _ & -> & _)]; [|destruct N; reflexivity].
    rewrite ER in A. exists ob. cbn [cmdArgs a_ref].
    split; [exact D|]. pose proof (i_ref _ _ IV a0 ob D) as IR. pose proof (none_refs st [] IV a0 ob D eq_refl) as NR. pose proof (refs_le (t_set st) [] a0) as LE. cbn [app] in *.
    change (zlen (@nil token)) with 0 in LE. split; [lia|].
    destruct (TT n c r (conj E1 A)) as (s' & HS). cbn [now set_env t_mem]. apply (region_table (o_fs o) (g_tab g) rd (lb_region ob) s' I). rewrite Q, RR. exact HS. }
  assert (SERVE : exists v ev, runp (packet h nwt done eth data) (now o st) = Some (Verdict v, now o st, ev) /\
    ((exists n a ob, current ops ans n = Some a /\ a_ref a <> 0 /\ accepts_packet (all_rules F R n) f data l4 /\
       (forall n' a', current ops ans n' = Some a' -> a_ref a' <> 0 -> accepts_packet (all_rules F R n') f data l4 -> a_priority a' <= a_priority a) /\
       deref (now o st) (a_ref a) = Some ob /\ v = mark_or (h_notargets h) (table_mark (t_mem (now o st) (lb_region ob)) (flow_hash (h_mode h) f))) \/
     v = h_nolb h /\ forall n a, current ops ans n = Some a -> accepts_packet (all_rules F R n) f data l4 -> a_ref a = 0)).
  { destruct CA as [f l4 (FO & P4 & PA) NZ CP NU|f l4 sp dp FO PR PI (OO & P4 & PA) (q & c & r & FQ & U & _ & EP & AD) CP NF].
    - apply (flowlb_served h nwt done eth data f l4 (now o st) L ops ans (all_rules F R) H5 RN ME FO P4 PA).
      + intros n a C M. destruct (CU n a C) as [(c & r & t & a0 & g0 & E1 & -> & _ & _ & _ & _ & ER)|(q & c & r & t & _ & _ & _ & _ & _ & ER)]; rewrite ER in M; [eapply CP; eauto|destruct M; reflexivity].
      + intros E. split; [auto|]. exact (no_udp L rd (o_next o) st F nw ops ans R FR EN RU f data l4 NU E (NZ E)).
      + exact (HO l4 TS).
    - cbn [fl_dport fl_src fl_dst] in EP, AD. pose proof (FR q) as FRQ. rewrite FQ in FRQ. destruct FRQ as (_ & _ & _ & _ & _ & UB & _).
      apply (encap_served h nwt done eth data f (c_udpencap c) l4 sp dp (now o st) L ops ans (all_rules F R) H5 RN ME FO PR); auto; [lia|..].
      + intros n a C M. destruct (CU n a C) as [(c' & r' & t & a0 & g0 & E1 & -> & _ & _ & _ & _ & ER)|(q' & c' & r' & t & _ & _ & _ & _ & _ & ER)]; rewrite ER in M; [eapply CP; eauto|destruct M; reflexivity].
      + intros n a C A. destruct (CU n a C) as [(c' & r' & t & a0 & g0 & E1 & -> & GR & U' & _ & _ & ER)|(q' & c' & r' & t & _ & E1 & _ & U' & -> & ER)]; rewrite ER in A.
        * destruct (NF n c' r' (conj E1 A)).
        * apply comp_accepts in A. cbn [fl_dport] in A. destruct A as (_ & A & _). split; [reflexivity|]. cbn [udpArgs a_udpencap]. congruence.
      + destruct (AC q c r FQ U) as (C1 & C2). exists (35 :: q), (udpArgs c q). split; [exact C1|]. rewrite C2. apply comp_accepts. cbn [fl_proto fl_dport fl_src fl_dst]. auto.
      + exact (HO (l4 + 8) TS). }
  destruct SERVE as (v & ev & RUN & OUT). exists v. rewrite RUN. split.
  { eexists. split; [reflexivity|]. split; [|eapply same_set; [exact OK|reflexivity]]. exists rd. split; [exact I|]. cbn [o_next o_proc]. split; [eapply procs_now; eauto|]. eapply tiers_keep; [exact TP|exact OK|reflexivity]. }
  destruct OUT as [(n & a & ob & C & N & A & MX & D & ->)|(-> & NO)].
  - left. destruct (CU n a C) as [(c & r & t & a0 & g0 & E1 & -> & _ & U & (ob' & D' & T & Q) & RR & ER)|(q & c & r & t & _ & _ & _ & _ & -> & _)]; [|destruct N; reflexivity].
    rewrite ER in A. exists n, c, r. split; [exact (conj E1 A)|]. split.
    + intros n' c' r' (F' & A'). destruct (AF n' c' r' F') as (a' & C' & N' & ER'). apply (MX n' _ C' N'). rewrite ER'. exact A'.
    + intros s x HS MK. cbn [cmdArgs a_ref] in D. change (deref st a0 = Some ob) in D. assert (ob' = ob) by congruence. subst ob'.
      destruct (region_table (o_fs o) (g_tab g) rd (lb_region ob) s I) as (RT & _); [rewrite Q, RR; exact HS|]. cbn [now set_env t_mem].
      rewrite RT, H1, H2. apply bare_marks. exact MK.
  - right. split; [exact H3|]. intros n c r (F' & A'). destruct (AF n c r F') as (a' & C' & N' & ER'). apply N'. apply (NO n _ C'). rewrite ER'. exact A'.
Qed.
End FlowPacket.

Lemma step_packet_flow b o g k nw done eth data m no nl L F R f l4 n c r s v : rel b o g -> 2 * b + 5 < 2147483648 -> g_srv g k = Some (SFlow m no nl L F) -> rules L F R ->
  carries F R eth data f l4 -> for_packet F R f data l4 n c r ->
  (forall n' c' r', for_packet F R f data l4 n' c' r' -> (exists s', has_table (g_tab g) r' s') /\ (c_priority c <= c_priority c' -> r' = r)) ->
  has_table (g_tab g) r s -> marks no s (flow_hash m f) v ->
  exists o', odo o (OPacket k nw done eth data) = Ok (o', Marked v) /\ rel b o' g /\ same_ft o o'.
Proof.
  intros RL B V RU CA FP TS HT MK.
  destruct (flow_packet_step b o g k nw done eth data m no nl L F R f l4 RL B V RU CA) as (x & S & [(n' & c' & r' & FP' & MX & X)|(_ & NO)]); [intros n' c' r' H; apply (TS n' c' r' H)| |].
  - destruct (TS n' c' r' FP') as (_ & E). specialize (E (MX n c r FP)). subst r'. rewrite <- (X s v HT MK). exact S.
  - destruct (NO n c r FP).
Qed.
Lemma step_packet_other b o g k nw done eth data m no nl L F R f l4 : rel b o g -> 2 * b + 5 < 2147483648 -> g_srv g k = Some (SFlow m no nl L F) -> rules L F R ->
  carries F R eth data f l4 -> (forall n c r, ~ for_packet F R f data l4 n c r) ->
  exists o', odo o (OPacket k nw done eth data) = Ok (o', Marked nl) /\ rel b o' g /\ same_ft o o'.
Proof.
  intros RL B V RU CA NO.
  destruct (flow_packet_step b o g k nw done eth data m no nl L F R f l4 RL B V RU CA) as (x & S & [(n' & c' & r' & FP' & _)|(-> & _)]); [intros n' c' r' H; destruct (NO _ _ _ H)| |exact S].
  destruct (NO _ _ _ FP').
Qed.
(** A fragment for another load-balancer of the tier *)
Lemma tier_elsewhere h kk local s r own x : h_tier h = Some (r, own) -> Lb_Spec.table_ok (t_mem s r) -> mark_or (-1) (table_mark (t_mem s r) (hashKeyAddresses kk)) = x ->
  0 <= x -> x <> own -> runp (tier h kk local) s = Some (Verdict x, s, []).
Proof.
  intros T TO MK X N. unfold tier. rewrite T. destruct (run_mark (fun _ => Some r) (hashKeyAddresses kk) (fun fw => if (0 <=? fw) && negb (fw =? own) then Ret (Verdict fw) else local) s r eq_refl TO) as (y & -> & Y).
  specialize (Y (-1)). rewrite MK in Y. assert (y = x) by (destruct (y <? 0); lia). subst y. replace (0 <=? x) with true by lia. replace (x =? own) with false by lia. reflexivity.
Qed.
Lemma step_packet_tier b o g k nw done eth data v r own a c s x : rel b o g -> g_srv g k = Some v -> g_tier g k = Some (r, own) -> fragment_of (encap_of v) eth data a c ->
  has_table (g_tab g) r s -> target s (djb2 (a ++ c)) x -> 0 <= x -> x <> own ->
  exists o', odo o (OPacket k nw done eth data) = Ok (o', Marked x) /\ rel b o' g /\ same_ft o o'.
Proof.
  intros (rd & I & P & TP) V TI (first & id & PT & FR) HT TG X N. pose proof (P k) as PK. pose proof (TP k) as TK. rewrite V in PK. rewrite TI in TK.
  destruct (o_proc o k) as [j|] eqn:OK; [|contradiction]. cbn [odo]. unfold onPacket. rewrite OK. pose proof (job_now _ _ _ o _ _ PK) as JN. cbv iota beta in JN.
  assert (MK : marks (-1) s (djb2 (a ++ c)) x) by (exists x; split; [exact TG|replace (x <? 0) with false by lia; reflexivity]). apply bare_marks in MK.
  assert (KEY : exists rc kk fi, getHashKey (S (length data)) (encap_of v) eth data = Ok (Some (rc, kk, fi)) /\ hashKeyAddresses kk = djb2 (a ++ c) /\ (Z.land rc 3 =? 0) = false).
  { assert (Y : exists q, getHashKey (S (length data)) (encap_of v) eth data = Ok (Some q)).
    { destruct first; [destruct (FR eq_refl) as (rc & kk & fi & E & _); eauto|].
      destruct PT as [(-> & q1 & q2 & -> & -> & F)|(-> & nxt & F)]; [rewrite (ipv4_nonfirst _ _ _ _ _ _ F)|rewrite (ipv6_frag_head _ _ _ _ _ _ _ _ F)]; eauto. }
    destruct Y as ([[rc kk] fi] & E). exists rc, kk, fi. destruct (part_key _ _ _ _ _ _ _ _ _ _ PT E) as (K1 & K2). split; [exact E|]. split; [exact K1|]. lia. }
  destruct KEY as (rc & kk & fi & KE & KH & KR).
  assert (ST : forall q st, tier_rel rd (o_next o) (Some q) (Some (r, own)) -> Lb_Spec.table_ok (t_mem (now o st) (fst q)) /\ mark_or (-1) (table_mark (t_mem (now o st) (fst q)) (hashKeyAddresses kk)) = x /\ snd q = own).
  { intros [g0 own0] st (_ & RR & OO). cbn [fst snd]. destruct (region_table (o_fs o) (g_tab g) rd g0 s I) as (RT & TO); [rewrite RR; exact HT|]. cbn [now set_env t_mem]. rewrite RT in *. rewrite KH. auto. }
  destruct j as [c0 st|h st], v as [m no en r0|m no nl L F]; try contradiction; cbn [tier_conf] in TK; [set (hh := l_h c0) in *|set (hh := h) in *];
    (destruct (h_tier hh) as [q|] eqn:HQ; [|contradiction]); destruct (ST q st TK) as (S1 & S2 & S3); destruct q as [g0 own0]; cbn [fst snd] in *; subst own0.
  - unfold lbPacket. cbn [encap_of] in KE. assert (EN : l_encap c0 = en) by apply PK. rewrite EN, KE, KR. fold hh.
    rewrite (tier_elsewhere hh kk _ (now o st) g0 own x HQ S1 S2 X N). eexists. split; [reflexivity|]. split; [|eapply same_set; [exact OK|reflexivity]]. exists rd. split; [exact I|]. cbn [o_next o_proc].
    split; [eapply procs_now; eauto|]. eapply tiers_keep; [exact TP|exact OK|reflexivity].
  - unfold packet. cbn [encap_of] in KE. rewrite KE, KR.
    rewrite (tier_elsewhere hh kk _ (now o st) g0 own x HQ S1 S2 X N). eexists. split; [reflexivity|]. split; [|eapply same_set; [exact OK|reflexivity]]. exists rd. split; [exact I|]. cbn [o_next o_proc].
    split; [eapply procs_now; eauto|]. eapply tiers_keep; [exact TP|exact OK|reflexivity].
Qed.
Lemma step_packet_none b o g k nw done eth data : rel b o g -> g_srv g k = None -> odo o (OPacket k nw done eth data) = Ok (o, NoServer).
Proof. intros (rd & I & P & TP) V. specialize (P k). rewrite V in P. cbn [odo]. unfold onPacket. destruct (o_proc o k); [contradiction|reflexivity]. Qed.
Lemma step_kill b o g k : rel b o g -> exists o', odo o (OKill k) = Ok (o', Ended 0 []) /\ rel b o' (mkSite (g_tab g) (at_k (g_srv g) k None) (at_k (g_tier g) k None)).
Proof. intros (rd & I & P & TP). cbn [odo]. eexists. split; [reflexivity|]. exists rd. split; [exact I|]. split; [apply procs_set; [exact P|exact Logic.I]|apply tiers_set; [exact TP|exact Logic.I]]. Qed.

Lemma rel_mono b b' o g : b <= b' -> rel b o g -> rel b' o g.
Proof. intros B (rd & I & P & TP). exists rd. split; [exact I|]. split; [|exact TP]. apply (procs_mono rd rd (o_next o) _ b); auto. lia. Qed.
Lemma rel_more b (o : oobs) g (x : outcome (host * oobs)) : (exists o', x = Ok (o', o) /\ rel b o' g) -> exists o', x = Ok (o', o) /\ rel (b + 1) o' g.
Proof. intros (o' & E & R). exists o'. split; [exact E|]. apply (rel_mono b); [lia|exact R]. Qed.
Lemma no_ft (P Q : host -> Prop) (x : outcome (host * oobs)) ob : (exists o', x = Ok (o', ob) /\ P o' /\ Q o') -> exists o', x = Ok (o', ob) /\ P o'.
Proof. intros (o' & E & R & _). eauto. Qed.
Lemma one_step b o g v w g' ob : 0 <= b -> 2 * b + 5 < 2147483648 -> rel b o g -> meant v w -> occurs g w g' ob -> exists o', odo o v = Ok (o', ob) /\ rel (b + 1) o' g'.
Proof.
  intros B0 B RL MT OC. inversion MT; subst; inversion OC; subst.
  - apply rel_more. eapply step_table; eauto.
  - apply rel_more. eapply step_lb; eauto.
  - apply rel_more. eapply step_lb_no; eauto.
  - apply rel_more. eapply step_flowlb; eauto.
  - apply rel_more. eapply step_flowlb_no; eauto.
  - eapply step_set; eauto.
  - eapply step_set_no; eauto.
  - eapply step_set_udp; eauto.
  - apply rel_more. exists o. split; [|exact RL]. eapply step_set_none; eauto.
  - eapply step_delete; eauto.
  - apply rel_more. exists o. split; [|exact RL]. eapply step_delete_none; eauto.
  - apply rel_more. eapply no_ft. eapply step_packet_lb; eauto.
  - apply rel_more. eapply no_ft. eapply step_packet_flow; eauto.
  - apply rel_more. eapply no_ft. eapply step_packet_other; eauto.
  - apply rel_more. eapply no_ft. eapply step_packet_tier; eauto.
  - apply rel_more. exists o. split; [|exact RL]. eapply step_packet_none; eauto.
  - apply rel_more. apply step_kill. exact RL.
Qed.
Lemma all_steps vs ws : Forall2 meant vs ws -> forall b o g g' os, 0 <= b -> 2 * (b + zlen vs) + 5 <= 2147483648 -> rel b o g -> occur g ws g' os ->
  exists o', odos o vs = Ok (o', os) /\ rel (b + zlen vs) o' g'.
Proof.
  induction 1 as [|v w vs ws M _ IH]; intros b o g g' os B0 B RL OC; inversion OC; subst.
  - exists o. split; [reflexivity|]. change (zlen (@nil oevent)) with 0. rewrite Z.add_0_r. exact RL.
  - assert (ZC : zlen (v :: vs) = zlen vs + 1) by (unfold zlen; cbn [length]; lia). rewrite ZC in *. assert (0 <= zlen vs) by (unfold zlen; lia). destruct (one_step b o g v w g1 o0) as (o1 & E & R1); auto; [lia|].
    destruct (IH (b + 1) o1 g1 g' os0) as (o2 & E2 & R2); auto; [lia|lia|]. exists o2. cbn [odos]. rewrite E. cbn [obind fst]. rewrite E2. cbn [obind fst snd].
    split; [reflexivity|]. replace (b + (zlen vs + 1)) with (b + 1 + zlen vs) by lia. exact R2.
Qed.
Lemma host_serves vs ws g os : Forall2 meant vs ws -> occur nothing ws g os -> zlen vs <= 1073741821 -> exists o, odos noHost vs = Ok (o, os).
Proof.
  intros M OC Z. destruct (all_steps vs ws M 0 noHost nothing g os) as (o & E & _); [lia|lia|apply rel_start; lia|exact OC|]. exists o. exact E.
Qed.

(** ** There is an answer *)
Lemma djb2_pos l : 0 <= djb2 l.
Proof.
  unfold djb2. assert (G : forall l h, 0 <= h -> 0 <= fold_left (fun h c => u32 (u32 (h * 32) + h + c)) l h); [|apply G; lia].
  clear l. induction l as [|c l IH]; intros h H; cbn [fold_left]; [exact H|]. apply IH. unfold u32. apply Z.mod_pos_bound. reflexivity.
Qed.
Lemma hash_pos m f : 0 <= flow_hash m f.
Proof. unfold flow_hash. destruct (_ && _)%bool; apply djb2_pos. Qed.
Lemma held_target fs tab rd g hash : linv fs (mkW tab rd) -> held_by (rd g) -> 0 <= hash -> exists s x, has_table tab (rd g) s /\ target s hash x.
Proof.
  intros (_ & _ & I3 & I4) H HP. specialize (I4 g). cbn [w_read w_tab] in *. destruct H as [(x & E)|(t & E)]; rewrite E in I4 |- *.
  - destruct I4 as (t & i & vw & A & B & _). specialize (I3 x). rewrite A in I3. destruct I3 as (j & J & HF).
    destruct (Lines_Proofs.held_target _ t hash HF HP) as (s & y & T & Y). exists s, y. split; [exists t; split; [exact T|]; right; exists x; auto|exact Y].
  - destruct I4 as (i & vw & _ & _ & _ & _ & HF). destruct (Lines_Proofs.held_target _ t hash HF HP) as (s & y & T & Y).
    exists s, y. split; [exists t; split; [exact T|]; left; reflexivity|exact Y].
Qed.
Lemma held_table fs tab rd g hash none : linv fs (mkW tab rd) -> held_by (rd g) -> 0 <= hash -> exists s v, has_table tab (rd g) s /\ marks none s hash v.
Proof. intros I H HP. destruct (held_target fs tab rd g hash I H HP) as (s & y & T & Y). exists s, (if y <? 0 then none else y). split; [exact T|exists y; auto]. Qed.
Lemma there_dec s t : (exists a g, there s t a g) \/ absent s t.
Proof.
  destruct (existsb (fun a => match deref s a with Some o => streq (lb_target o) t | None => false end) (map Z.of_nat (seq 1 (length (t_objs s))))) eqn:E.
  - left. apply existsb_exists in E. destruct E as (a & _ & H). destruct (deref s a) as [o|] eqn:D; [|discriminate]. exists a, (lb_region o), o. split; [exact D|]. split; [apply streq_eq; exact H|reflexivity].
  - right. intros a g (o & D & T & R). assert (X : existsb (fun a => match deref s a with Some o => streq (lb_target o) t | None => false end) (map Z.of_nat (seq 1 (length (t_objs s)))) = true); [|congruence].
    apply existsb_exists. exists a. split; [|rewrite D, T; apply streq_refl]. apply deref_len in D. apply in_map_iff. exists (Z.to_nat a). split; [lia|]. apply in_seq. unfold zlen in D. lia.
Qed.
Lemma tier_dec tab w : nameable (w_tier w) -> (exists ti, tier_is tab w ti) \/ tier_gone tab w.
Proof.
  unfold nameable, tier_is, tier_gone. destruct (w_tier w) as [n|]; [|eauto]. intros (x & O). destruct (tab x) as [t|] eqn:E; [left; eexists; exists x, t; split; [exact O|auto]|right; exists x; auto].
Qed.
Lemma srv_dec (x : option server) : (exists m no nl L F, x = Some (SFlow m no nl L F)) \/ forall m no nl L F, x <> Some (SFlow m no nl L F).
Proof. destruct x as [[m no en r|m no nl L F]|]; [right; discriminate|left; exists m, no, nl, L, F; reflexivity|right; discriminate]. Qed.
Lemma table_answer fs tab rd e r : linv fs (mkW tab rd) -> sound (mkW tab (fun _ => Nobody)) (VLine e r) -> exists tab' f st out, changes tab e r tab' f st out.
Proof.
  intros IV SO. unfold changes. destruct r as [x own m n|x c|x|shm x].
  - destruct SO as (p & SZ & PB & FT). destruct (Z_le_dec n p) as [LE|GT].
    + exists (at_name tab x (Some (mkMade own m n (ie_rand e) []))), (becomes x Lost). do 2 eexists. intros rd'. exact (h_init (mkW tab rd') e x own m n p SZ LE (FT LE)).
    + exists tab, (fun r => r). do 2 eexists. intros rd'. exact (h_init_no (mkW tab rd') e x own m n p SZ ltac:(lia) PB).
  - destruct (tab x) as [t|] eqn:T; [destruct (Lines2_Proofs.index_dec (d_n t) c) as [IX|IX]|].
    + exists (at_name tab x (Some (mkMade (d_own t) (d_m t) (d_n t) (d_rand t) (d_cmds t ++ [c])))), (fun r => r). do 2 eexists. intros rd'. exact (h_cmd (mkW tab rd') e x c t T IX).
    + exists tab, (fun r => r). do 2 eexists. intros rd'. exact (h_cmd_index (mkW tab rd') e x c t T IX).
    + exists tab, (fun r => r). do 2 eexists. intros rd'. exact (h_cmd_none (mkW tab rd') e x c T).
  - destruct (tab x) as [t|] eqn:T.
    + exists (at_name tab x None), (becomes x (Kept t)). do 2 eexists. intros rd'. exact (h_delete (mkW tab rd') e x t T).
    + exists tab, (fun r => r). do 2 eexists. intros rd'. exact (h_delete_none (mkW tab rd') e x T).
  - destruct (tab x) as [t|] eqn:T.
    + pose proof IV as (_ & _ & I3 & _). specialize (I3 x). cbn [w_tab] in I3. rewrite T in I3. destruct I3 as (i & _ & HF). destruct (Lines_Proofs.held_target _ _ 0 HF ltac:(lia)) as (s & y & TS & _).
      exists tab, (fun r => r). do 2 eexists. intros rd'. exact (h_show (mkW tab rd') e shm x t s T TS).
    + exists tab, (fun r => r). do 2 eexists. intros rd'. exact (h_show_none (mkW tab rd') e shm x T).
Qed.
Lemma answer b o g w : rel b o g -> 2 * b + 5 < 2147483648 -> sensible_event g w -> exists g' ob, occurs g w g' ob.
Proof.
  intros RL B SE. pose proof RL as (rd & IV & P & TP). destruct w as [e r|k D w en x|k D w nolb|k c|k n|k eth data|k]; cbn [sensible_event] in SE.
  - destruct (table_answer _ _ _ e r IV SE) as (tab' & f & st & out & C). eexists; eexists. eapply c_table; eauto.
  - destruct (tier_dec (g_tab g) w SE) as [(ti & T)|T]; [|eexists; eexists; eapply c_lb_no; eauto]. destruct (g_tab g x) as [t|] eqn:TX; eexists; eexists; [eapply c_lb; eauto|eapply c_lb_no; eauto].
  - destruct (tier_dec (g_tab g) w SE) as [(ti & T)|T]; eexists; eexists; [eapply c_flowlb; eauto|eapply c_flowlb_no; eauto].
  - destruct (srv_dec (g_srv g k)) as [(m & no & nl & L & F & V)|N]; [|eexists; eexists; eapply c_set_none; eauto].
    destruct (SE _ _ _ _ _ V) as (n & t & x & GR & O).
    destruct (srv_flow _ _ _ _ _ _ _ _ _ _ _ P V) as (h & s & PK & H1 & H2 & H3 & H4 & H5 & H6 & nw & CM & FR).
    assert (SD : same_udp F n c \/ exists c' r', F n = Some (c', r') /\ c_udpencap c' <> c_udpencap c).
    { unfold same_udp. destruct (F n) as [[c' r']|]; [|left; discriminate]. destruct (Z.eq_dec (c_udpencap c') (c_udpencap c)) as [E|NE]; [left; intros c2 r2 [= <- _]; exact E|right; eauto]. }
    destruct SD as [SD|(c' & r' & FN & NU)]; [|eexists; eexists; eapply c_set_udp; eauto].
    destruct (there_dec s t) as [(a & gg & TH)|AB].
    + destruct (there_shared L rd (o_next o) s F nw H5 CM FR t a gg TH) as (S & _). eexists; eexists. eapply c_set; eauto.
    + assert (NS : forall r', ~ shared F t r'). { intros r' S. destruct (shared_there L rd (o_next o) s F nw FR t r' S) as (a & gg & TH & _). exact (AB a gg TH). }
      destruct (g_tab g x) as [d|] eqn:TX.
      * eexists; eexists. eapply c_set; eauto. right. split; [exact NS|]. exists x, d. auto.
      * eexists; eexists. eapply c_set_no; eauto. intros x' O'. rewrite (object_fun t x' x O' O). exact TX.
  - destruct (srv_dec (g_srv g k)) as [(m & no & nl & L & F & V)|N]; eexists; eexists; [eapply c_delete; eauto|eapply c_delete_none; eauto].
  - destruct SE as [(v & r & own & a & c & V & TI & FO & HB & OWN)|SE].
    { pose proof (TP k) as TK. rewrite TI in TK. pose proof (P k) as PK. rewrite V in PK. destruct (o_proc o k) as [j|]; [|contradiction].
      destruct (tier_conf j) as [[g0 own0]|]; [|contradiction]. destruct TK as (_ & RR & _). rewrite <- RR in HB.
      destruct (held_target _ _ _ _ (djb2 (a ++ c)) IV HB (djb2_pos _)) as (s & x & HT & TG). rewrite RR in HT. destruct (OWN s x HT TG) as (O1 & O2).
      eexists; eexists. eapply c_packet_tier; eauto. }
    destruct (g_srv g k) as [[m no en r|m no nl L F]|] eqn:V; [| |eexists; eexists; eapply c_packet_none; eauto].
    + destruct SE as (HB & f & FO & FP). pose proof (P k) as PK. rewrite V in PK. destruct (o_proc o k) as [[c st|h st]|]; try contradiction. destruct PK as (_ & _ & _ & _ & E).
      rewrite <- E in HB. destruct (held_table _ _ _ _ (flow_hash m f) no IV HB (hash_pos m f)) as (s & v & HT & MK). rewrite E in HT. eexists; eexists. eapply c_packet_lb; eauto.
    + destruct SE as (R & f & l4 & RU & CA & HB & UQ).
      destruct (srv_flow _ _ _ _ _ _ _ _ _ _ _ P V) as (h & s & PK & H1 & H2 & H3 & H4 & H5 & H6 & nw & CM & FR).
      assert (HT : forall n c r, for_packet F R f data l4 n c r -> exists s v, has_table (g_tab g) r s /\ marks no s (flow_hash m f) v).
      { intros n c r FP. pose proof (HB n c r FP) as HR. destruct FP as (FN & _). specialize (FR n). rewrite FN in FR. destruct FR as (t & a & gg & _ & _ & _ & _ & _ & E). rewrite <- E in HR |- *.
        apply (held_table _ _ _ _ _ _ IV HR (hash_pos m f)). }
      destruct (flow_packet_step b o g k 0 false eth data m no nl L F R f l4 RL B V RU CA) as (x & _ & [(n & c & r & FP & MX & _)|(_ & NO)]).
      * intros n c r FP. destruct (HT n c r FP) as (s' & v & H & _). eauto.
      * destruct (HT n c r FP) as (s' & v & HS & MK). eexists; eexists. eapply c_packet_flow; eauto. intros n' c' r' FP'. split; [destruct (HT _ _ _ FP') as (s2 & v2 & HS2 & _); eauto|].
        intros LE. pose proof (MX _ _ _ FP'). symmetry. apply (UQ n c r n' c' r' FP FP'); [lia|exact MX].
      * eexists; eexists. eapply c_packet_other; eauto.
  - eexists; eexists. apply c_kill.
Qed.
Lemma host_answers vs ws g os v w : Forall2 meant vs ws -> occur nothing ws g os -> zlen vs < 1073741821 -> meant v w -> sensible_event g w -> exists g' ob, occurs g w g' ob.
Proof.
  intros M OC Z _ SE. destruct (all_steps vs ws M 0 noHost nothing g os) as (o & _ & RL); [lia|lia|apply rel_start; lia|exact OC|]. apply (answer _ _ _ _ RL); [lia|exact SE].
Qed.

(** ** Flows with the same target *)
Definition alike (F : Host_Spec.flows) : Prop := forall t r r', shared F t r -> shared F t r' -> r = r'.
Definition all_alike (g : site) : Prop := forall k m no b L F, g_srv g k = Some (SFlow m no b L F) -> alike F.
Lemma alike_set F n c t r : alike F -> c_target c = Some t -> shared F t r \/ (forall r', ~ shared F t r') -> alike (at_name F n (Some (c, r))).
Proof.
  intros A T S. assert (X : forall t' r', shared (at_name F n (Some (c, r))) t' r' -> (t' = t /\ r' = r) \/ shared F t' r').
  { intros t' r' (m & d & H & H'). unfold at_name in H. destruct (streq m n) eqn:Q; [injection H as <- <-; left; split; congruence|]. right. exists m, d. auto. }
  intros t' r1 r2 H1 H2. destruct (X _ _ H1) as [(E1 & E2)|S1], (X _ _ H2) as [(E3 & E4)|S2]; subst; auto.
  - destruct S as [S|S]; [exact (A _ _ _ S S2)|destruct (S _ S2)].
  - destruct S as [S|S]; [exact (A _ _ _ S1 S)|destruct (S _ S1)].
  - exact (A _ _ _ S1 S2).
Qed.
Lemma alike_delete F n : alike F -> alike (at_name F n None).
Proof.
  intros A. assert (X : forall t' r', shared (at_name F n None) t' r' -> shared F t' r').
  { intros t' r' (m & d & H & H'). unfold at_name in H. destruct (streq m n); [discriminate|]. exists m, d. auto. }
  intros t r r' H H'. exact (A _ _ _ (X _ _ H) (X _ _ H')).
Qed.
Lemma alike_changed F f : alike F -> alike (fun x => match F x with Some (c, t) => Some (c, f t) | None => None end).
Proof.
  intros A. assert (X : forall t' r', shared (fun x => match F x with Some (c, t) => Some (c, f t) | None => None end) t' r' -> exists r, shared F t' r /\ r' = f r).
  { intros t' r' (m & d & H & H'). destruct (F m) as [[c r]|] eqn:E; [|discriminate]. injection H as <- <-. exists r. split; [exists m, c; auto|reflexivity]. }
  intros t r r' H H'. destruct (X _ _ H) as (r1 & S1 & ->), (X _ _ H') as (r2 & S2 & ->). f_equal. exact (A _ _ _ S1 S2).
Qed.
Lemma at_alike g k x tab ti : all_alike g -> match x with Some (SFlow _ _ _ _ F) => alike F | _ => True end -> all_alike (mkSite tab (at_k (g_srv g) k x) ti).
Proof. intros A X i m no b L F H. cbn [g_srv] in H. unfold at_k in H. destruct (i =? k); [rewrite H in X; exact X|exact (A _ _ _ _ _ _ H)]. Qed.
Lemma occurs_alike g w g' ob : occurs g w g' ob -> all_alike g -> all_alike g'.
Proof.
  intros O A. destruct O; try exact A; try (apply at_alike; [exact A|exact Logic.I]).
  - intros k m no b L F H'. cbn [g_srv] in H'. destruct (g_srv g k) as [[m' no' en r'|m' no' b' L' F']|] eqn:E; cbn [changed] in H'; try discriminate.
    injection H' as <- <- <- <- <-. apply alike_changed. exact (A _ _ _ _ _ _ E).
  - apply at_alike; [exact A|]. intros t r r' (n & c & X & _). discriminate X.
  - apply at_alike; [exact A|]. destruct H0 as (_ & T & _). apply (alike_set F n c t); [exact (A _ _ _ _ _ _ H)|exact T|]. destruct H2 as [S|(S & _)]; auto.
  - apply at_alike; [exact A|]. apply alike_delete. exact (A _ _ _ _ _ _ H).
Qed.
Lemma occur_alike ws g g' os : occur g ws g' os -> all_alike g -> all_alike g'.
Proof. induction 1 as [|g w g1 o ws g2 os O _ IH]; [auto|]. intros A. apply IH. exact (occurs_alike _ _ _ _ O A). Qed.
Lemma same_target ws g os k m no b L F n c r n' c' r' : occur nothing ws g os -> g_srv g k = Some (SFlow m no b L F) ->
  F n = Some (c, r) -> F n' = Some (c', r') -> c_target c <> None -> c_target c = c_target c' -> r = r'.
Proof.
  intros O V H H' N E. destruct (c_target c) as [t|] eqn:T; [|destruct (N eq_refl)].
  apply (occur_alike _ _ _ _ O) with (k := k) (m := m) (no := no) (b := b) (L := L) (F := F) (t := t); auto; [intros i ? ? ? ? ? X; discriminate X|exists n, c; auto|exists n', c'; auto].
Qed.
