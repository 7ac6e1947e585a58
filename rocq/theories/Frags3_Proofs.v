(** Fragments on the host (C79): one event, and all events. *)
From Coq Require Import String.
From Verif Require Import Base Lists Cstr_Model IpKey_Model IpKey_Spec IpKey_Proofs IpKey2_Proofs Match_Spec Match_Proofs Maglev_Model Flow_Model Flow_Spec Flow_Proofs Flow2_Proofs
  Remote_Model FlowLb_Model FlowLb_Spec FlowLb4_Proofs Lb_Model Lb_Spec Lb_Proofs Lb2_Proofs Lb3_Proofs Fwmark_Spec Fwmark2_Proofs Steer_Spec Steer_Proofs FlowLb_Proofs FlowLb2_Proofs Requests_Spec
  Client_Spec Start_Model Start_Spec Lines_Model Lines_Spec Host_Proofs Host_Model Host_Spec Host2_Proofs Host3_Proofs Host4_Proofs Host5_Proofs Host6_Proofs Opt_Model Opt_Spec Frags_Spec Frags_Proofs Frags2_Proofs.
From Verif Require Lines2_Proofs Frag_Model Frag_Spec.

Definition knows_all (o : host) (t : Z) (y : Z -> memory) : Prop := forall k j, o_proc o k = Some j -> knows (conf_of j) (t_ft (st_of j)) t (y k).
Definition crel (b t : Z) (o : host) (c : city) : Prop := rel b o (y_site c) /\ 0 <= t /\ knows_all o t (y_mem c).

(** ** One packet *)
Lemma frag_step b o g t y y' k j v nw done eth data x ft tun ev : rel b o g -> knows_all o t y -> t <= nw -> o_proc o k = Some j -> g_srv g k = Some v ->
  runp (prog_of j nw done eth data) (now o (st_of j)) = Some (Verdict x, set_ft (now o (st_of j)) ft tun, ev) ->
  (forall i, i <> k -> y' i = y i) -> knows (conf_of j) ft nw (y' k) ->
  exists o', odo o (OPacket k nw done eth data) = Ok (o', Marked x) /\ rel b o' g /\ knows_all o' nw y'.
Proof.
  intros (rd & I & P & TP) KA T J V R Y K. rewrite (at_job o k j nw done eth data x _ ev J R). eexists. split; [reflexivity|].
  pose proof (P k) as PK. rewrite J, V in PK. split.
  - exists rd. split; [exact I|]. cbn [o_next o_proc]. split; [eapply procs_now; [exact P|exact V|]; apply job_ft; exact PK|]. eapply tiers_keep; [exact TP|exact J|]. destruct j; reflexivity.
  - intros i ji Ji. cbn [o_proc] in Ji. destruct (Z.eq_dec i k) as [->|N].
    + rewrite setProc_same in Ji. injection Ji as <-. destruct j; exact K.
    + rewrite setProc_other in Ji by exact N. rewrite (Y i N). apply (knows_later _ _ t); [exact T|]. apply KA. exact Ji.
Qed.
Lemma set_ft_same s : set_ft s (t_ft s) [] = s.
Proof. destruct s; unfold set_ft; cbn; rewrite ?app_nil_r; reflexivity. Qed.
Lemma same_step b o g t y k j v nw done eth data x ev : rel b o g -> knows_all o t y -> t <= nw -> o_proc o k = Some j -> g_srv g k = Some v ->
  runp (prog_of j nw done eth data) (now o (st_of j)) = Some (Verdict x, now o (st_of j), ev) ->
  exists o', odo o (OPacket k nw done eth data) = Ok (o', Marked x) /\ rel b o' g /\ knows_all o' nw y.
Proof.
  intros RL KA T J V R. eapply (frag_step b o g t y y k j v nw done eth data x (t_ft (now o (st_of j))) [] ev); auto.
  - rewrite set_ft_same. exact R.
  - apply (knows_later _ _ t); [exact T|]. apply (KA k j J).
Qed.

(** The tier *)
Lemma conf_tier j : tier_conf j = h_tier (conf_of j).
Proof. destruct j; reflexivity. Qed.
Lemma tier_split b o g k j v a c : rel b o g -> o_proc o k = Some j -> g_srv g k = Some v -> whole_tier g k ->
  left_here g k a c \/ exists r own s x, g_tier g k = Some (r, own) /\ has_table (g_tab g) r s /\ target s (djb2 (a ++ c)) x /\ 0 <= x /\ x <> own.
Proof.
  intros (rd & I & P & TP) J V W. unfold left_here, whole_tier in *. destruct (g_tier g k) as [[r own]|] eqn:TI; [|auto].
  pose proof (TP k) as TK. rewrite J, TI in TK. destruct (tier_conf j) as [[g0 own0]|]; [|contradiction]. destruct TK as (_ & RR & _). pose proof (W r own eq_refl) as HB. rewrite <- RR in HB.
  destruct (held_target _ _ _ _ (djb2 (a ++ c)) I HB (djb2_pos _)) as (s & x & HT & TG). rewrite RR in HT.
  destruct (Z_lt_dec x 0); [left; eauto 8|]. destruct (Z.eq_dec x own); [left; eauto 8|]. right. exists r, own, s, x. repeat split; auto. lia.
Qed.
Lemma left_conf b o g k j a c kk s0 : rel b o g -> o_proc o k = Some j -> left_here g k a c -> hashKeyAddresses kk = djb2 (a ++ c) ->
  forall r own, h_tier (conf_of j) = Some (r, own) -> Lb_Spec.table_ok (t_mem (now o s0) r) /\
    exists x, (forall none, mark_or none (table_mark (t_mem (now o s0) r) (hashKeyAddresses kk)) = if x <? 0 then none else x) /\ (x < 0 \/ x = own).
Proof.
  intros (rd & I & P & TP) J LH HK r own HT. pose proof (TP k) as TK. rewrite J, conf_tier, HT in TK. unfold left_here in LH. destruct (g_tier g k) as [[r' own']|]; [|contradiction].
  destruct TK as (_ & RR & <-). destruct LH as (s & x & H1 & H2 & H3). destruct (region_table (o_fs o) (g_tab g) rd r s I) as (RT & TO); [rewrite RR; exact H1|].
  cbn [now set_env t_mem]. split; [exact TO|]. exists x. split; [|exact H3]. intros none. rewrite RT, HK. apply bare_marks. exists x. auto.
Qed.
Lemma srv_job b o g k v : rel b o g -> g_srv g k = Some v -> exists j, o_proc o k = Some j /\ enc_of j = encap_of v.
Proof.
  intros (rd & I & P & TP) V. specialize (P k). rewrite V in P. destruct (o_proc o k) as [j|]; [|contradiction]. exists j. split; [reflexivity|].
  destruct j, v; cbn in P |- *; try contradiction; [|reflexivity]. apply P.
Qed.

(** ** First fragments *)
Definition told (h : hconf) (nw : Z) (done : bool) (f : flow) (id : list Z) (x : Z) : prog := rest f h nw done 1 (Some (id_bytes id)) x.
Lemma same_mark x y : (forall none : Z, (if x <? 0 then none else x) = if y <? 0 then none else y) -> x < 0 /\ y < 0 \/ x = y /\ 0 <= x.
Proof. intros H. pose proof (H (-1)) as A. pose proof (H (-2)) as B. destruct (Z.ltb_spec x 0), (Z.ltb_spec y 0); lia. Qed.
Lemma told_same h nw done f id x y : (forall none : Z, (if x <? 0 then none else x) = if y <? 0 then none else y) -> told h nw done f id x = told h nw done f id y.
Proof.
  intros H. destruct (same_mark x y H) as [(A & B)|(-> & _)]; [|reflexivity]. unfold told, rest. replace (x <? 0) with true by lia. replace (y <? 0) with true by lia. reflexivity.
Qed.
Definition goes (g : site) (o : host) (k eth : Z) (data : list Z) (f : flow) (l4 : Z) (id : list Z) (j : job) (nw : Z) (done : bool) : Prop :=
  (exists r m no s x ev, chosen g k eth data f l4 (Some r) m no /\ has_table (g_tab g) r s /\ target s (flow_hash m f) x /\ h_notargets (conf_of j) = no /\
     runp (body j nw done eth data 1 (mk_flow_key f) (Some (id_bytes id))) (now o (st_of j)) = after ev (runp (told (conf_of j) nw done f id x) (now o (st_of j)))) \/
  exists m b, chosen g k eth data f l4 None m b /\
     runp (body j nw done eth data 1 (mk_flow_key f) (Some (id_bytes id))) (now o (st_of j)) = Some (Verdict b, now o (st_of j), []).
Lemma first_lb b o g k j m no en r eth data f l4 id nw done : rel b o g -> o_proc o k = Some j -> g_srv g k = Some (SLb m no en r) -> flow_ok f -> held_by r ->
  goes g o k eth data f l4 id j nw done.
Proof.
  intros (rd & I & P & TP) J V FO HB. left. pose proof (P k) as PK. rewrite J, V in PK. destruct j as [c st|h st]; [|contradiction]. destruct PK as (H1 & H2 & H3 & H4 & H5). rewrite <- H5 in HB.
  destruct (held_target _ _ _ _ (flow_hash m f) I HB (hash_pos m f)) as (s & x & HT & TG).
  destruct (region_table (o_fs o) (g_tab g) rd (l_target c) s I HT) as (RT & TO). rewrite H5 in HT.
  cbn [body conf_of st_of]. unfold balance. rewrite (flow_key_hash f _ FO), H1.
  match goal with |- context [readTable ?reg ?hh ?kk] => destruct (run_mark reg hh kk (now o st) (l_target c) eq_refl) as (y & -> & Y) end; [exact TO|].
  exists r, m, no, s, x, []. split; [eapply ch_lb; eauto|]. split; [exact HT|]. split; [exact TG|]. split; [exact H2|].
  rewrite (told_same _ _ _ _ _ x y); [unfold told, rest; rewrite after_nil; reflexivity|]. intros none. rewrite <- Y. symmetry. cbn [now set_env t_mem]. rewrite RT. apply bare_marks. exists x. auto.
Qed.
Lemma first_seen enc eth data f l4 id F R n c r : first_frag enc eth data f l4 id -> matchable F R eth data f l4 -> F n = Some (c, r) -> seen_l4 (R n) eth data f l4.
Proof.
  intros (FO & _ & H) M E N. destruct (M n c r E N) as (-> & CP). split; [|exact CP]. destruct H as [(_ & (s4 & d4 & _ & _ & H4) & _)|(X & _)]; [|discriminate].
  assert (20 <= l4) by apply H4. split; [assumption|]. change (ETH_IP =? 2048) with true. cbv iota. eapply l4v4; [exact H4|]. unfold complete_plus in CP. pose proof (header_size_bound (fl_proto f)). lia.
Qed.
Lemma first_flow b o g k j m no nl L F eth data f l4 id nw done : rel b o g -> 2 * b + 5 < 2147483648 -> o_proc o k = Some j -> g_srv g k = Some (SFlow m no nl L F) -> first_frag 0 eth data f l4 id ->
  decided g k eth data f l4 -> goes g o k eth data f l4 id j nw done.
Proof.
  intros RL B J V FF DC. unfold decided in DC. rewrite V in DC. destruct DC as (R & RU & NZ & MA & NU & HB). destruct RL as (rd & I & P & TP). pose proof (P k) as PK. rewrite J, V in PK.
  destruct j as [c st|h st]; [contradiction|]. destruct PK as (H1 & H2 & H3 & H4 & H5 & H6 & nwf & CM & FR).
  pose proof CM as [IV (ops & ans & RN & EN) _ _]. pose proof (proj1 FF) as FO.
  destruct (server_flows L rd (o_next o) st F nwf ops ans R FR EN RU) as (CU & AF & _ & ME).
  assert (HT : forall n c r hash, for_packet F R f data l4 n c r -> 0 <= hash -> exists s x, has_table (g_tab g) r s /\ target s hash x).
  { intros n c r hash FP HH. pose proof (HB n c r FP) as HR. destruct FP as (FN & _). specialize (FR n). rewrite FN in FR. destruct FR as (t & a & gg & _ & _ & _ & _ & _ & E). rewrite <- E in HR |- *.
    apply (held_target _ _ _ _ _ I HR HH). }
  destruct (classify_run L ops (t_set st) ans (all_rules F R) eth data f l4 H5 RN) with (h := h) (now := nw) (done := done) (s := now o st) (rc := 1) (fi := Some (id_bytes id)) as [(n & a & ob & y & ev & C & N & AC & MX & D & Y & RUN)|(RUN & NO)].
  - exact ME.
  - exact FO.
  - intros n a C. destruct (CU n a C) as [(c & r & t & a0 & g0 & E1 & -> & _ & _ & _ & _ & ER)|(q & c & r & t & _ & _ & _ & _ & _ & ER)]; rewrite ER; [eapply first_seen; eauto|intros N; destruct N; reflexivity].
  - reflexivity.
  - intros E. split; [auto|]. exact (no_udp L rd (o_next o) st F nwf ops ans R FR EN RU f data l4 NU E (NZ E)).
  - intros n a C N AC. destruct (CU n a C) as [(c & r & t & a0 & g0 & E1 & -> & _ & U & (ob & D & T & Q) & RR & ER)|(q & c & r & t & _ & _ & _ & _ & -> & _)]; [|destruct N; reflexivity].
    rewrite ER in AC. exists ob. cbn [cmdArgs a_ref].
    split; [exact D|]. pose proof (i_ref _ _ IV a0 ob D) as IR. pose proof (none_refs st [] IV a0 ob D eq_refl) as NR. pose proof (refs_le (t_set st) [] a0) as LE. cbn [app] in *.
    change (zlen (@nil token)) with 0 in LE. split; [lia|].
    destruct (HT n c r 0 (conj E1 AC) ltac:(lia)) as (s' & _ & HS & _). cbn [now set_env t_mem]. apply (region_table (o_fs o) (g_tab g) rd (lb_region ob) s' I). rewrite Q, RR. exact HS.
  - left. destruct (CU n a C) as [(c & r & t & a0 & g0 & E1 & -> & _ & U & (ob' & D' & T & Q) & RR & ER)|(q & c & r & t & _ & _ & _ & _ & -> & _)]; [|destruct N; reflexivity].
    rewrite ER in AC. cbn [cmdArgs a_ref] in D. change (deref st a0 = Some ob) in D. assert (ob' = ob) by congruence. subst ob'.
    assert (FP : for_packet F R f data l4 n c r) by (split; assumption).
    assert (MX' : forall n' c' r', for_packet F R f data l4 n' c' r' -> c_priority c' <= c_priority c).
    { intros n' c' r' (F' & A'). destruct (AF n' c' r' F') as (a' & C' & N' & ER'). apply (MX n' _ C' N'). rewrite ER'. exact A'. }
    destruct (HT n c r (flow_hash m f) FP (hash_pos m f)) as (s & x & HS & TG). exists r, m, no, s, x, ev.
    split; [eapply ch_flow; eauto|].
    split; [exact HS|]. split; [exact TG|]. split; [exact H2|]. cbn [body conf_of st_of]. rewrite RUN. f_equal. unfold told. f_equal. apply told_same.
    intros none. rewrite <- Y. cbn [now set_env t_mem]. destruct (region_table (o_fs o) (g_tab g) rd (lb_region ob) s I) as (RT & _); [rewrite Q, RR; exact HS|]. rewrite RT, H1. apply bare_marks. exists x. auto.
  - right. exists m, nl. split; [eapply ch_none; eauto|].
    + intros n c r (F' & A'). destruct (AF n c r F') as (a' & C' & N' & ER'). apply N'. apply (NO n _ C'). rewrite ER'. exact A'.
    + cbn [body st_of]. rewrite RUN, H3. reflexivity.
Qed.
Lemma learned_same y k m : learned y k m k = mkMem (y_ttl (y k)) (y_mtu (y k)) m.
Proof. unfold learned, at_k. rewrite Z.eqb_refl. reflexivity. Qed.
Lemma learned_other y k m i : i <> k -> learned y k m i = y i.
Proof. intros N. unfold learned, at_k. replace (i =? k) with false by lia. reflexivity. Qed.
Lemma host_first b o g t y k v eth data f l4 id nw done : rel b o g -> 2 * b + 5 < 2147483648 -> 0 <= t -> knows_all o t y -> t <= nw < two64 -> g_srv g k = Some v ->
  first_frag (encap_of v) eth data f l4 id -> decided g k eth data f l4 -> left_here g k (fl_src f) (fl_dst f) ->
  exists o' x c', odo o (OPacket k nw done eth data) = Ok (o', Marked x) /\ may (mkCity g y) (UPacket k eth data, nw, done) c' (Marked x) /\ crel b nw o' c'.
Proof.
  intros RL B T0 KA T V FF DC LH. destruct (srv_job b o g k v RL V) as (j & J & EN). pose proof (first_key _ _ _ _ _ _ FF) as KE. rewrite <- EN in KE.
  assert (PR : runp (prog_of j nw done eth data) (now o (st_of j)) = runp (body j nw done eth data 1 (mk_flow_key f) (Some (id_bytes id))) (now o (st_of j))).
  { rewrite (prog_here j nw done eth data _ _ _ (now o (st_of j)) KE); [reflexivity|discriminate|]. exact (left_conf b o g k j _ _ (mk_flow_key f) (st_of j) RL J LH eq_refl). }
  assert (GO : goes g o k eth data f l4 id j nw done).
  { destruct v as [m no en r|m no nl L F]; cbn [encap_of] in FF.
    - eapply first_lb; eauto; [apply FF|]. unfold decided in DC. rewrite V in DC. exact DC.
    - eapply first_flow; eauto. }
  destruct GO as [(r & m & no & s & x & ev & CH & HT & TG & NO & RUN)|(m & nl & CH & RUN)].
  - rewrite RUN in PR. unfold told, rest in PR. destruct (Z.ltb_spec x 0) as [X|X].
    + cbn [runp after] in PR. rewrite NO in PR. destruct (same_step b o g t y k j v nw done eth data no _ RL KA (proj1 T) J V PR) as (o' & E & R' & K').
      exists o', no, (mkCity g y). split; [exact E|]. split; [eapply y_first_no; eauto|]. split; [exact R'|]. split; [lia|exact K'].
    + change (Z.land 1 1 =? 0) with false in PR. cbv iota in PR.
      destruct (run_first (conf_of j) nw done (mk_flow_key f) (id_bytes id) x (now o (st_of j)) t (y k) _ (KA k j J) T T0 eq_refl) as (an & sm & ft & tun & FS & R1 & K1).
      rewrite R1 in PR. cbn [after] in PR. change (key_bytes (with_id (mk_flow_key f) (id_bytes id))) with (datagram (fl_src f) (fl_dst f) id) in FS.
      destruct (frag_step b o g t y (learned y k sm) k j v nw done eth data _ ft tun _ RL KA (proj1 T) J V PR) as (o' & E & R' & K').
      { intros i N. apply learned_other. exact N. }
      { rewrite learned_same. exact K1. }
      exists o', (if Frag_Spec.an_rc an =? 0 then x else -1), (mkCity g (learned y k sm)). split; [exact E|]. split; [eapply y_first; eauto|]. split; [exact R'|]. split; [lia|exact K'].
  - rewrite RUN in PR. destruct (same_step b o g t y k j v nw done eth data nl _ RL KA (proj1 T) J V PR) as (o' & E & R' & K').
    exists o', nl, (mkCity g y). split; [exact E|]. split; [eapply y_first_none; eauto|]. split; [exact R'|]. split; [lia|exact K'].
Qed.
Lemma host_other b o g t y k v eth data a c id nw done : rel b o g -> 0 <= t -> knows_all o t y -> t <= nw < two64 -> g_srv g k = Some v ->
  part eth data false a c id -> left_here g k a c ->
  exists o' x c', odo o (OPacket k nw done eth data) = Ok (o', Marked x) /\ may (mkCity g y) (UPacket k eth data, nw, done) c' (Marked x) /\ crel b nw o' c'.
Proof.
  intros RL T0 KA T V PT LH. destruct (srv_job b o g k v RL V) as (j & J & EN). destruct (other_key (enc_of j) eth data a c id PT) as (rc & kk & fi & KE & R3 & R1 & KB & HK).
  assert (PR := prog_here j nw done eth data _ _ _ (now o (st_of j)) KE R3 (left_conf b o g k j _ _ kk (st_of j) RL J LH HK)). rewrite R1 in PR. change (0 =? 0) with true in PR. cbv iota in PR.
  destruct (run_other (conf_of j) nw done kk data (now o (st_of j)) t (y k) (KA k j J) T T0) as (an & sm & ft & OS & RN & K1). rewrite RN in PR. rewrite KB in OS.
  destruct (frag_step b o g t y (learned y k sm) k j v nw done eth data _ ft [] _ RL KA (proj1 T) J V PR) as (o' & E & R' & K').
  { intros i N. apply learned_other. exact N. }
  { rewrite learned_same. exact K1. }
  eexists o', _, (mkCity g (learned y k sm)). split; [exact E|]. split; [eapply y_other; eauto|]. split; [exact R'|]. split; [lia|exact K'].
Qed.

(** ** One event *)
Definition after_event (t : Z) (v : oevent) : Z := match v with OPacket _ nw _ _ _ => nw | _ => t end.
Lemma knows_same o o' t t' y : (forall k j', o_proc o' k = Some j' -> exists j, o_proc o k = Some j /\ conf_of j' = conf_of j /\ t_ft (st_of j') = t_ft (st_of j)) -> t <= t' -> knows_all o t y -> knows_all o' t' y.
Proof. intros H T K k j' J'. destruct (H k j' J') as (j & J & C & F). rewrite C, F. apply (knows_later _ _ t); [exact T|]. apply K. exact J. Qed.
Lemma live_left b o g k j : rel b o g -> o_proc o k = Some j -> exists v, g_srv g k = Some v.
Proof. intros (rd & _ & P & _) J. specialize (P k). rewrite J in P. destruct (g_srv g k) as [v|]; [eauto|contradiction]. Qed.
Lemma live_right b o g k v : rel b o g -> g_srv g k = Some v -> exists j, o_proc o k = Some j.
Proof. intros (rd & _ & P & _) V. specialize (P k). rewrite V in P. destruct (o_proc o k) as [j|]; [eauto|contradiction]. Qed.
Lemma occurs_live g w g' ob i v : occurs g w g' ob -> (match w with ULb k _ _ _ _ | UFlowLb k _ _ _ => k <> i | _ => True end) -> g_srv g' i = Some v -> exists v', g_srv g i = Some v'.
Proof.
  intros OC N V. inversion OC; subst; cbn [g_srv] in V; eauto.
  - destruct (g_srv g i); [eauto|discriminate].
  - unfold at_k in V. replace (i =? k) with false in V by lia. eauto.
  - unfold at_k in V. replace (i =? k) with false in V by lia. eauto.
  - unfold at_k in V. replace (i =? k) with false in V by lia. eauto.
  - unfold at_k in V. replace (i =? k) with false in V by lia. eauto.
  - unfold at_k in V. destruct (Z.eqb_spec i k) as [->|]; eauto.
  - unfold at_k in V. destruct (Z.eqb_spec i k) as [->|]; eauto.
  - unfold at_k in V. destruct (Z.eqb_spec i k) as [->|]; [discriminate|eauto].
Qed.
Lemma started_knows o v o' u k enc w none t : odo o v = Ok (o', Started true) -> meant v u -> steers u k enc w none -> 0 < w_size w -> w_ttl w <= 4294 -> 0 <= t ->
  forall j, o_proc o' k = Some j -> knows (conf_of j) (t_ft (st_of j)) t (mkMem (w_ttl w * 1000000) (w_mtu w) Frag_Spec.sempty).
Proof.
  intros E M S PS TT T j J. destruct (start_job o v o' u k enc w none E M S PS) as (j' & J' & FT & FC & _ & _ & CS & TL & _). assert (j' = j) by congruence. subst j'.
  rewrite FT. assert (TE : w_ttl w * 1000000 = Frag_Model.g_ttl (h_frag (conf_of j))) by (rewrite FC; unfold Frag_Model.g_ttl, frag_conf, u32, two32; cbn [Frag_Model.g_millis]; rewrite Z.mod_small; lia).
  rewrite TE. replace (w_mtu w) with (Frag_Model.g_mtu (h_frag (conf_of j))) by (rewrite FC; reflexivity). apply knows_new; [rewrite FC; exact CS|exact T].
Qed.
Lemma event_step b o g t y v w tt d g' ob : rel b o g -> 0 <= b -> 2 * b + 5 < 2147483648 -> 0 <= t -> knows_all o t y -> t <= after_event t v -> meant v w -> fit w -> occurs g w g' ob ->
  exists o', odo o v = Ok (o', ob) /\ may (mkCity g y) (w, tt, d) (mkCity g' (began w y)) ob /\ crel (b + 1) (after_event t v) o' (mkCity g' (began w y)).
Proof.
  intros RL B0 B T0 KA T M FI OC. destruct (one_step b o g v w g' ob B0 B RL M OC) as (o' & E & R'). exists o'. split; [exact E|]. split; [apply y_event; exact OC|]. split; [exact R'|]. split; [lia|].
  cbn [y_mem].
  assert (OLD : forall i, (match w with ULb k _ _ _ _ | UFlowLb k _ _ _ => k <> i | _ => True end) -> stays i v -> began w y i = y i ->
    (forall k' nw done eth data, v = OPacket k' nw done eth data -> same_ft o o') ->
    forall j', o_proc o' i = Some j' -> knows (conf_of j') (t_ft (st_of j')) (after_event t v) (began w y i)).
  { intros i NS ST BE PK j' J'. destruct (live_left _ _ _ _ _ R' J') as (v' & V'). destruct (occurs_live _ _ _ _ _ _ OC NS V') as (v0 & V0). destruct (live_right _ _ _ _ _ RL V0) as (j & J).
    destruct (one_does o v o' ob i j E ST J) as (j2 & J2 & (_ & C2) & DO & _). assert (j2 = j') by congruence. subst j2.
    rewrite BE, C2. apply (knows_later _ _ t); [exact T|]. replace (t_ft (st_of j')) with (t_ft (st_of j)); [apply KA; exact J|]. symmetry.
    destruct v as [e ws|k0 D ws|k0 ws junk|k0 nw done eth data|k0]; cbn [does] in DO; try exact DO. destruct (PK _ _ _ _ _ eq_refl i j J) as (j3 & J3 & F3). assert (j3 = j') by congruence. subst j3. exact F3. }
  intros i j' J'.
  assert (NEW : forall k, i = k -> match w with ULb k0 _ _ _ _ | UFlowLb k0 _ _ _ => k0 = k | _ => False end -> knows (conf_of j') (t_ft (st_of j')) (after_event t v) (began w y i)).
  { intros k <- W. destruct w as [| k0 D w en x| k0 D w nolb| | | |]; try contradiction; subst k0; cbn [began fit] in *; unfold at_k; rewrite Z.eqb_refl.
    - destruct FI as (F1 & F2). inversion OC; subst.
      + eapply started_knows; eauto; [constructor|lia].
      + destruct (live_left _ _ _ _ _ R' J') as (v' & V'). cbn [g_srv] in V'. unfold at_k in V'. rewrite Z.eqb_refl in V'. discriminate.
    - destruct FI as (F1 & F2). inversion OC; subst.
      + eapply started_knows; eauto; [constructor|lia].
      + destruct (live_left _ _ _ _ _ R' J') as (v' & V'). cbn [g_srv] in V'. unfold at_k in V'. rewrite Z.eqb_refl in V'. discriminate. }
  inversion M; subst; try (apply OLD; auto; cbn [began stays]; auto; intros; discriminate).
  - destruct (Z.eq_dec i k) as [->|N]; [apply (NEW k); reflexivity|]. apply OLD; auto; [cbn; lia| |intros; discriminate]. cbn [began]. unfold at_k. replace (i =? k) with false by lia. reflexivity.
  - destruct (Z.eq_dec i k) as [->|N]; [apply (NEW k); reflexivity|]. apply OLD; auto; [cbn; lia| |intros; discriminate]. cbn [began]. unfold at_k. replace (i =? k) with false by lia. reflexivity.
  - apply OLD; [exact Logic.I|exact Logic.I|reflexivity| |exact J']. intros _ _ _ _ _ _.
    assert (X : forall x, (exists o2, odo o (OPacket k nw done eth data) = Ok (o2, Marked x) /\ rel b o2 g /\ same_ft o o2) -> same_ft o o').
    { intros x (o2 & E2 & _ & S2). rewrite E in E2. injection E2 as <- _. exact S2. }
    inversion OC; subst.
    + eapply X. eapply step_packet_lb; eauto.
    + eapply X. eapply step_packet_flow; eauto.
    + eapply X. eapply step_packet_other; eauto.
    + eapply X. eapply step_packet_tier; eauto.
    + rewrite (step_packet_none b o g' k nw done eth data RL) in E by assumption. injection E as <-. intros k1 j1 J1. eauto.
  - destruct (Z.eq_dec i k) as [->|N]; [|apply OLD; [exact Logic.I|cbn; lia|reflexivity|intros; discriminate|exact J']].
    destruct (live_left _ _ _ _ _ R' J') as (v' & V'). inversion OC; subst. cbn [g_srv] in V'. unfold at_k in V'. rewrite Z.eqb_refl in V'. discriminate.
Qed.
(** A packet that several flows of the highest priority may be for *)
Lemma one_flow b o g t y k eth data nw done : rel b o g -> 2 * b + 5 < 2147483648 -> 0 <= t -> knows_all o t y -> t <= nw < two64 -> for_flows g k eth data ->
  exists o' x c', odo o (OPacket k nw done eth data) = Ok (o', Marked x) /\ may (mkCity g y) (UPacket k eth data, nw, done) c' (Marked x) /\ crel b nw o' c'.
Proof.
  intros RL B T0 KA T (m & no & nl & L & F & R & f & l4 & V & RU & CA & HB). pose proof RL as (rd & IV & P & TP).
  destruct (srv_flow _ _ _ _ _ _ _ _ _ _ _ P V) as (h & s & PK & H1 & H2 & H3 & H4 & H5 & H6 & nwf & CM & FR).
  assert (HT : forall n c r, for_packet F R f data l4 n c r -> exists s v, has_table (g_tab g) r s /\ marks no s (flow_hash m f) v).
  { intros n c r FP. pose proof (HB n c r FP) as HR. destruct FP as (FN & _). specialize (FR n). rewrite FN in FR. destruct FR as (t1 & a & gg & _ & _ & _ & _ & _ & E). rewrite <- E in HR |- *.
    apply (held_table _ _ _ _ _ _ IV HR (hash_pos m f)). }
  destruct (flow_packet_step b o g k nw done eth data m no nl L F R f l4 RL B V RU CA) as (x & (o' & E & R' & SF) & OUT).
  { intros n c r FP. destruct (HT n c r FP) as (s' & v & H & _). eauto. }
  exists o', x, (mkCity g y). split; [exact E|]. split.
  - destruct OUT as [(n & c & r & FP & MX & X)|(-> & NO)].
    + destruct (HT n c r FP) as (s' & v & HS & MK). rewrite (X s' v HS MK). eapply y_one; eauto.
    + apply (y_event g y (UPacket k eth data) nw done g). eapply c_packet_other; eauto.
  - split; [exact R'|]. split; [lia|]. cbn [y_mem]. intros i j' J'. destruct (live_left _ _ _ _ _ R' J') as (v' & V'). destruct (live_right _ _ _ _ _ RL V') as (j & J).
    destruct (one_does o _ o' _ i j E Logic.I J) as (j2 & J2 & (_ & C2) & _). assert (j2 = j') by congruence. subst j2. destruct (SF i j J) as (j3 & J3 & F3). assert (j3 = j') by congruence. subst j3.
    change (t_ft (st_of j') = t_ft (st_of j)) in F3. rewrite C2, F3. apply (knows_later _ _ t); [lia|]. apply KA. exact J.
Qed.
Lemma crel_more b t o c : crel b t o c -> crel (b + 1) t o c.
Proof. intros (R & K). split; [|exact K]. apply (rel_mono b); [lia|exact R]. Qed.
Lemma city_step b o t c v m : crel b t o c -> 0 <= b -> 2 * b + 5 < 2147483648 -> meant_at v m -> match v with OPacket _ nw _ _ _ => t <= nw < two64 | _ => True end -> proper (y_site c) (fst (fst m)) ->
  exists o' ob c', odo o v = Ok (o', ob) /\ may c m c' ob /\ crel (b + 1) (after_event t v) o' c'.
Proof.
  intros (RL & T0 & KA) B0 B MA CL (FI & PR). destruct c as [g y]. cbn [y_site y_mem] in *. destruct m as [[w tt] d]. cbn [fst] in *. destruct MA as (M & MT).
  assert (T : t <= after_event t v) by (destruct v; cbn [after_event]; lia).
  assert (EV : forall g' ob, occurs g w g' ob -> exists o' ob c', odo o v = Ok (o', ob) /\ may (mkCity g y) (w, tt, d) c' ob /\ crel (b + 1) (after_event t v) o' c').
  { intros g' ob OC. destruct (event_step b o g t y v w tt d g' ob) as (o' & E & MY & R); auto. eauto 8. }
  destruct PR as [SE|[(k & eth & data & -> & FF)|(k & eth & data & sv & -> & V & WT & FR)]].
  - destruct (answer b o g w RL B SE) as (g' & ob & OC). eapply EV; eauto.
  - inversion M; subst. destruct MT as (-> & ->). cbn [after_event] in *. destruct (one_flow b o g t y k eth data nw done RL B T0 KA CL FF) as (o' & x & c' & E & MY & CR).
    exists o', (Marked x), c'. split; [exact E|]. split; [exact MY|]. apply crel_more. exact CR.
  - inversion M; subst. destruct MT as (-> & ->). cbn [after_event] in *. destruct (srv_job b o g k sv RL V) as (j & J & EN).
    assert (DONE : (exists o' x c', odo o (OPacket k nw done eth data) = Ok (o', Marked x) /\ may (mkCity g y) (UPacket k eth data, nw, done) c' (Marked x) /\ crel b nw o' c') ->
      exists o' ob c', odo o (OPacket k nw done eth data) = Ok (o', ob) /\ may (mkCity g y) (UPacket k eth data, nw, done) c' ob /\ crel (b + 1) nw o' c').
    { intros (o' & x & c' & E & MY & CR). exists o', (Marked x), c'. split; [exact E|]. split; [exact MY|]. apply crel_more. exact CR. }
    destruct FR as [(f & l4 & id & FF & DC)|(a & c & id & PT)].
    + destruct (tier_split b o g k j sv (fl_src f) (fl_dst f) RL J V WT) as [LH|(r & own & s & x & TI & HT & TG & X & N)].
      * apply DONE. eapply (host_first b o g t y k sv eth data f l4 id nw done); eauto.
      * eapply EV. eapply c_packet_tier; eauto. eapply is_fragment; [apply FF|]. exact (first_key _ _ _ _ _ _ FF).
    + destruct (tier_split b o g k j sv a c RL J V WT) as [LH|(r & own & s & x & TI & HT & TG & X & N)].
      * apply DONE. eapply (host_other b o g t y k sv eth data a c id nw done); eauto.
      * eapply EV. eapply c_packet_tier; eauto. destruct (other_key (encap_of sv) eth data a c id PT) as (rc & kk & fi & KE & _). eapply is_fragment; eauto.
Qed.
Lemma all_city vs ms : Forall2 meant_at vs ms -> forall b t o c, crel b t o c -> 0 <= b -> 2 * (b + zlen vs) + 5 <= 2147483648 -> host_clock t vs ->
  (forall ms0 m ms1 c' os, ms = ms0 ++ m :: ms1 -> mays c ms0 c' os -> proper (y_site c') (fst (fst m))) ->
  exists o' os c', odos o vs = Ok (o', os) /\ mays c ms c' os.
Proof.
  induction 1 as [|v m vs ms M _ IH]; intros b t o c CR B0 B CL PR.
  - exists o, [], c. split; [reflexivity|constructor].
  - assert (ZC : zlen (v :: vs) = zlen vs + 1) by (unfold zlen; cbn [length]; lia). rewrite ZC in *. assert (0 <= zlen vs) by (unfold zlen; lia).
    assert (CL' : match v with OPacket _ nw _ _ _ => t <= nw < two64 | _ => True end /\ host_clock (after_event t v) vs) by (destruct v; cbn in *; tauto). destruct CL' as (C1 & C2).
    destruct (city_step b o t c v m CR B0 ltac:(lia) M C1 (PR [] m ms c [] eq_refl (ys_nil c))) as (o1 & ob & c1 & E1 & M1 & R1).
    destruct (IH (b + 1) _ o1 c1 R1) as (o2 & os & c2 & E2 & M2); [lia|lia|exact C2| |].
    { intros ms0 m' ms1 c' os EQ MY. apply (PR (m :: ms0) m' ms1 c' (ob :: os)); [rewrite EQ; reflexivity|econstructor; eauto]. }
    exists o2, (ob :: os), c2. cbn [odos]. rewrite E1. cbn [obind fst]. rewrite E2. cbn [obind fst snd]. split; [reflexivity|econstructor; eauto].
Qed.
Lemma city_serves vs ms : Forall2 meant_at vs ms -> host_clock 0 vs -> zlen vs <= 1073741821 ->
  (forall ms0 m ms1 c' os, ms = ms0 ++ m :: ms1 -> mays empty_city ms0 c' os -> proper (y_site c') (fst (fst m))) ->
  exists o os c, odos noHost vs = Ok (o, os) /\ mays empty_city ms c os.
Proof.
  intros M CL Z PR. apply (all_city vs ms M 0 0 noHost empty_city); auto; [|lia|lia]. split; [apply rel_start; lia|]. split; [lia|]. intros k j J. discriminate.
Qed.
