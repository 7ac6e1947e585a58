(** The host (C79): fragments of a datagram go the same way. *)
From Coq Require Import String.
From Verif Require Import Base Lists Cstr_Model IpKey_Model Maglev_Model Flow_Model Remote_Model FlowLb_Model FlowLb_Spec Lb_Model Lb_Spec Steer_Spec
  Client_Spec Start_Model Start_Spec Start_Proofs Util_Proofs Flow2_Proofs Lines_Model Host_Model Host_Spec Host2_Proofs Host3_Proofs Opt_Model Opt_Spec.
From Verif Require Frag_Model Frag_Spec Steer2_Proofs Steer3_Proofs.

(** What a job is *)
Definition prog_of (j : job) : Z -> bool -> Z -> list Z -> prog := match j with JLb g _ => lbPacket g | JFlow h _ => packet h end.
Definition conf_of (j : job) : hconf := match j with JLb g _ => l_h g | JFlow h _ => h end.
Definition enc_of (j : job) : Z := match j with JLb g _ => l_encap g | JFlow h _ => 0 end.
Definition st_of (j : job) : state := match j with JLb _ s => s | JFlow _ s => s end.
Definition same_job (j j' : job) : Prop := prog_of j' = prog_of j /\ conf_of j' = conf_of j.

Lemma keeps_run : forall p s r s' ev, Steer3_Proofs.keeps p -> runp p s = Some (r, s', ev) -> t_ft s' = t_ft s.
Proof.
  fix IH 1. intros [r0|l f] s r s' ev K R; [cbn in R; congruence|]. cbn [runp] in R. cbn [Steer3_Proofs.keeps] in K. specialize (K s). destruct (f s) as [ev1 s1 p1| |]; try discriminate.
  cbn [runr] in R. destruct K as (K1 & K2). destruct (runp p1 s1) as [[[r2 s2] ev2]|] eqn:E; [|discriminate]. injection R as <- <- <-. rewrite <- K1. exact (IH p1 s1 _ _ _ K2 E).
Qed.
Lemma setProc_other p k j x : k <> j -> setProc p j x k = p k.
Proof. intros N. unfold setProc. replace (k =? j) with false by lia. reflexivity. Qed.
Lemma setProc_same p k x : setProc p k x k = x.
Proof. unfold setProc. rewrite Z.eqb_refl. reflexivity. Qed.
Lemma mapped_mem fs r n fs' x : mapped fs r n = Ok fs' -> x <> r -> memOf fs' x = memOf fs x.
Proof.
  destruct n as [n|]; cbn [mapped]; [|congruence]. unfold mapTable. intros E N. unfold memOf. destruct (openShm fs n) as [i|].
  - destruct (Shm_Model.map_view (s_data fs i)) as [v| | |]; try discriminate. cbn in E. injection E as <-. cbn [s_map s_data]. unfold updz. replace (x =? r) with false by lia. reflexivity.
  - cbn in E. injection E as <-. cbn [s_map s_data]. unfold updz. replace (x =? r) with false by lia. reflexivity.
Qed.

(** What an event does to process k *)
Definition does (o o1 : host) (k : Z) (v : oevent) (ob : oobs) (j j' : job) : Prop :=
  match v with
  | OPacket i nw done eth data => if i =? k then exists m ev, ob = Marked m /\ runp (prog_of j nw done eth data) (now o (st_of j)) = Some (Verdict m, st_of j', ev)
                                  else t_ft (st_of j') = t_ft (st_of j)
  | _ => t_ft (st_of j') = t_ft (st_of j)
  end.
Lemma same_refl j : same_job j j.
Proof. split; reflexivity. Qed.
Ltac still j := exists j; split; [assumption|]; split; [apply same_refl|]; split; [reflexivity|].
Lemma one_does o v o1 ob k j : odo o v = Ok (o1, ob) -> stays k v -> o_proc o k = Some j ->
  exists j', o_proc o1 k = Some j' /\ same_job j j' /\ does o o1 k v ob j j' /\ o_next o <= o_next o1 /\ (no_line v -> forall r, r < o_next o -> memOf (o_fs o1) r = memOf (o_fs o) r).
Proof.
  intros E ST J. destruct v as [e ws|i D ws|i ws junk|i nw done eth data|i]; cbn [odo] in E; cbn [stays] in ST.
  - destruct (exec e (o_fs o) ws) as [[[fs st] out]| | |]; try discriminate. cbn in E. injection E as <- _. still j. cbn. split; [lia|]. intros [].
  - assert (X : (o1, ob) = (o, ob) -> exists j', o_proc o1 k = Some j' /\ same_job j j' /\ does o o1 k (OStart i D ws) ob j j' /\ o_next o <= o_next o1 /\ (no_line (OStart i D ws) -> forall r, r < o_next o -> memOf (o_fs o1) r = memOf (o_fs o) r)).
    { intros [= ->]. still j. split; [lia|auto]. }
    destruct ws as [|c ws]; [apply X; congruence|]. destruct (streq c (str "lb")); [|destruct (streq c (str "flowlb")); [|apply X; congruence]]; clear X.
    + unfold startLb in E. destruct (mapped (o_fs o) (o_next o) _) as [f1| | |] eqn:M1; try discriminate. cbn [obind] in E. destruct (mapped f1 (o_next o + 1) _) as [f2| | |] eqn:M2; try discriminate. cbn [obind] in E.
      destruct (cmdLb _ i ws) as [[acts b]| | |]; try discriminate. cbn [obind snd] in E. destruct b as [|g qs ql mt rs]; cbn [obind fst snd] in E; injection E as <- <-; exists j; cbn [o_proc o_next o_fs];
        (split; [rewrite setProc_other by lia; exact J|]); (split; [apply same_refl|]); (split; [reflexivity|]); (split; [lia|]); intros _ r R; auto.
      rewrite (mapped_mem _ _ _ _ r M2) by lia. apply (mapped_mem _ _ _ _ r M1). lia.
    + unfold startFlowLb in E. destruct (mapped (o_fs o) (o_next o) _) as [f1| | |] eqn:M1; try discriminate. cbn [obind] in E.
      destruct (cmdFlowLb _ i ws) as [[acts b]| | |]; try discriminate. cbn [obind snd] in E. destruct b as [|g qs ql mt rs]; cbn [obind fst snd] in E; injection E as <- <-; exists j; cbn [o_proc o_next o_fs];
        (split; [rewrite setProc_other by lia; exact J|]); (split; [apply same_refl|]); (split; [reflexivity|]); (split; [lia|]); intros _ r R; auto.
      apply (mapped_mem _ _ _ _ r M1). lia.
  - assert (X : forall ob', Ok (o, ob') = Ok (o1, ob) -> exists j', o_proc o1 k = Some j' /\ same_job j j' /\ does o o1 k (OFlow i ws junk) ob j j' /\ o_next o <= o_next o1 /\ (no_line (OFlow i ws junk) -> forall r, r < o_next o -> memOf (o_fs o1) r = memOf (o_fs o) r)).
    { intros ob' [= <- _]. still j. split; [lia|auto]. }
    assert (FL : forall c ws', flowLine o i c ws' junk = Ok (o1, ob) -> exists j', o_proc o1 k = Some j' /\ same_job j j' /\ does o o1 k (OFlow i ws junk) ob j j' /\ o_next o <= o_next o1 /\ (no_line (OFlow i ws junk) -> forall r, r < o_next o -> memOf (o_fs o1) r = memOf (o_fs o) r)).
    { clear E. intros c ws' E. unfold flowLine in E. destruct (Client_Model.sends c ws') as [[t|]| | |]; try discriminate; try (eapply X; exact E).
      destruct (o_proc o i) as [[g s|h s]|] eqn:JI; try (eapply X; exact E). destruct (readFlowCmd t) as [q| | |]; try discriminate. cbn [obind] in E.
      destruct q as [[fc rest]|]; [|destruct (Client_Model.talkEnd junk []) as [e| | |]; try discriminate; cbn [obind] in E; eapply X; exact E].
      destruct (runp (command (h_lib h) fc) (now o s)) as [[[[m|m] s'] ev]|] eqn:R; try discriminate.
      destruct (Client_Model.replyText fc m) as [a| | |]; try discriminate. cbn [obind] in E. destruct (Client_Model.talkEnd junk _) as [e| | |]; try discriminate. cbn [obind] in E.
      destruct (mapped (o_fs o) (o_next o) _) as [fs| | |] eqn:M; try discriminate. cbn [obind] in E. injection E as <- _. cbn [o_proc o_next o_fs].
      apply keeps_run in R; [|apply Steer3_Proofs.keeps_command]. cbn [now set_env t_ft] in R.
      destruct (Z.eq_dec i k) as [->|N].
      - rewrite setProc_same. assert (j = JFlow h s) by congruence. subst j. exists (JFlow h s'). split; [reflexivity|]. split; [split; reflexivity|]. split; [exact R|]. split; [lia|].
        intros _ r RR. apply (mapped_mem _ _ _ _ r M). lia.
      - exists j. split; [rewrite setProc_other by lia; exact J|]. split; [apply same_refl|]. split; [reflexivity|]. split; [lia|]. intros _ r RR. apply (mapped_mem _ _ _ _ r M). lia. }
    destruct ws as [|c ws]; [eapply X; exact E|]. destruct (streq c (str "flow-set")); [eapply FL; exact E|]. destruct (streq c (str "flow-delete")); [eapply FL; exact E|eapply X; exact E].
  - unfold onPacket in E. cbn [does]. destruct (Z.eqb_spec i k) as [->|N].
    + rewrite J in E. destruct j as [g s|h s]; cbn [prog_of st_of].
      * destruct (runp (lbPacket g nw done eth data) (now o s)) as [[[[m|m] s'] ev]|] eqn:R; try discriminate. injection E as <- <-. cbn [o_proc o_next o_fs]. rewrite setProc_same.
        exists (JLb g s'). split; [reflexivity|]. split; [split; reflexivity|]. split; [exists m, ev; split; reflexivity|]. split; [lia|auto].
      * destruct (runp (packet h nw done eth data) (now o s)) as [[[[m|m] s'] ev]|] eqn:R; try discriminate. injection E as <- <-. cbn [o_proc o_next o_fs]. rewrite setProc_same.
        exists (JFlow h s'). split; [reflexivity|]. split; [split; reflexivity|]. split; [exists m, ev; split; reflexivity|]. split; [lia|auto].
    + destruct (o_proc o i) as [[g s|h s]|].
      * destruct (runp _ _) as [[[[m|m] s'] ev]|]; try discriminate. injection E as <- <-. cbn [o_proc o_next o_fs]. exists j. split; [rewrite setProc_other by lia; exact J|]. split; [apply same_refl|]. split; [reflexivity|]. split; [lia|auto].
      * destruct (runp _ _) as [[[[m|m] s'] ev]|]; try discriminate. injection E as <- <-. cbn [o_proc o_next o_fs]. exists j. split; [rewrite setProc_other by lia; exact J|]. split; [apply same_refl|]. split; [reflexivity|]. split; [lia|auto].
      * injection E as <- <-. still j. split; [lia|auto].
  - injection E as <- <-. exists j. cbn [o_proc o_next o_fs]. split; [rewrite setProc_other by lia; exact J|]. split; [apply same_refl|]. split; [reflexivity|]. split; [lia|auto].
Qed.
Lemma all_handled k T : forall vs o o' os j, odos o vs = Ok (o', os) -> Forall (stays k) vs -> o_proc o k = Some j ->
  (forall r own, h_tier (conf_of j) = Some (r, own) -> Forall no_line vs /\ r < o_next o /\ memOf (o_fs o) r = T) ->
  handled (prog_of j) (tier_table (conf_of j) T) (t_ft (st_of j)) (map fst (came k vs os)) (map snd (came k vs os)).
Proof.
  induction vs as [|v vs IH]; intros o o' os j E ST J TI; cbn [odos] in E; [injection E as <- <-; constructor|].
  destruct (odo o v) as [[o1 ob]| | |] eqn:E1; try discriminate. cbn [obind fst snd] in E. destruct (odos o1 vs) as [[o2 os2]| | |] eqn:E2; try discriminate. cbn [obind fst snd] in E. injection E as <- <-.
  inversion ST as [|? ? S1 S2]; subst. destruct (one_does o v o1 ob k j E1 S1 J) as (j' & J' & (P1 & P2) & DO & NX & ME).
  assert (TI' : forall r own, h_tier (conf_of j') = Some (r, own) -> Forall no_line vs /\ r < o_next o1 /\ memOf (o_fs o1) r = T).
  { intros r own H. rewrite P2 in H. destruct (TI r own H) as (T1 & T2 & T3). inversion T1; subst. split; [assumption|]. split; [lia|]. apply ME; auto. }
  specialize (IH o1 o2 os2 j' E2 S2 J' TI'). rewrite P1, P2 in IH. cbn [came].
  destruct v as [e ws|i D ws|i ws junk|i nw done eth data|i]; cbn [does] in DO; try (rewrite <- DO; exact IH).
  destruct (i =? k); [|rewrite <- DO; destruct ob; exact IH]. destruct DO as (m & ev & -> & R). cbn [map fst snd].
  change (t_ft (st_of j)) with (t_ft (now o (st_of j))). eapply hd_cons; [|exact R|exact IH].
  intros r own H. cbn [now set_env t_mem]. exact (proj2 (proj2 (TI r own H))).
Qed.

(** ** The start *)
Lemma num_bound opts its n v : number opts its n v -> v <= 2147483647.
Proof. intros (s & _ & (B & _)). lia. Qed.
Lemma conf_fits opts its w : says opts its w -> sensible w -> 0 < w_size w -> Frag_Spec.conf_seq (frag_conf w).
Proof.
  intros (_ & _ & _ & _ & _ & _ & _ & _ & N1 & N2 & N3 & _ & _) SE P. apply num_bound in N1, N2, N3. unfold sensible in SE. rewrite Forall_forall in SE. cbn [In] in SE.
  assert (B1 : 0 <= w_buckets w) by (apply SE; auto 10). assert (B2 : 0 <= w_frag w) by (apply SE; auto 10).
  unfold Frag_Spec.conf_seq, Frag_Spec.conf_ok, frag_conf, two32. cbn [Frag_Model.g_hsize Frag_Model.g_maxBuckets Frag_Model.g_maxFragments]. destruct (w_tun w); lia.
Qed.
Lemma tier_of_some E w : tierOf E (w_tier w) <> None -> exists tr, tier_of E w tr /\ (w_tier w = None -> tr = None).
Proof. unfold tierOf, tier_of. destruct (w_tier w) as [n|]; [|eauto]. destruct (e_shm E n) as [x|]; [|congruence]. intros _. exists (Some x). split; [eauto|discriminate]. Qed.
Lemma seen_region fs region n x : seen fs region n = Some x -> fst x = region n.
Proof. unfold seen. destruct (openShm fs n); [|discriminate]. destruct (Shm_Model.lds _ _); try discriminate. intros [= <-]. reflexivity. Qed.
Lemma tier_region fs region D w tr r own : tier_of (envOf fs region D) w tr -> tr = Some (r, own) -> exists n, r = region n.
Proof.
  unfold tier_of. destruct (w_tier w) as [n|]; [|congruence]. intros (x & S & ->) [= ->]. cbn [e_shm envOf] in S. apply seen_region in S. eauto.
Qed.
Lemma start_job o v o1 u k enc w none : odo o v = Ok (o1, Started true) -> meant v u -> steers u k enc w none -> 0 < w_size w ->
  exists j, o_proc o1 k = Some j /\ t_ft (st_of j) = Frag_Model.fragTableCreate (h_frag (conf_of j)) /\ h_frag (conf_of j) = frag_conf w /\ enc_of j = enc /\
    none = [-1; h_notargets (conf_of j); h_nolb (conf_of j)] /\ Frag_Spec.conf_seq (frag_conf w) /\ 0 <= w_ttl w /\
    forall r own, h_tier (conf_of j) = Some (r, own) -> w_tier w <> None /\ r < o_next o1.
Proof.
  intros E M S PS. inversion S; subst; inversion M; subst; cbn [odo] in E.
  - match goal with H : allowed _ _ |- _ => destruct H as (SE & US) end. rewrite streq_refl in E. unfold startLb in E. destruct lb_table as [TO RQ].
    match goal with H1 : Forall (item_ok lbOpts) its, H2 : says lbOpts its w, H3 : value_of lbOpts its "tshm" (Some tn) |- _ => rename H1 into F, H2 into SY, H3 into V end.
    rewrite (value_at lbOpts its tail 5 _ "tshm" _ TO F RQ eq_refl eq_refl V), (value_at lbOpts its tail 6 _ "lbshm" _ TO F RQ eq_refl eq_refl (tier_value _ _ _ SY)) in E.
    destruct (mapped (o_fs o) (o_next o) _) as [f1| | |]; try discriminate. cbn [obind] in E. destruct (mapped f1 (o_next o + 1) _) as [f2| | |]; try discriminate. cbn [obind] in E.
    set (region := fun n => if is (Some tn) n then o_next o else o_next o + 1) in *.
    destruct (e_shm (envOf (o_fs o) region D) tn) as [[t own]|] eqn:SH.
    2:{ rewrite (lb_no _ k its tail tn (w_tier w) F V (tier_value _ _ _ SY) (or_introl SH)) in E. cbn in E. discriminate. }
    destruct (tierOf (envOf (o_fs o) region D) (w_tier w)) as [q|] eqn:TI.
    2:{ rewrite (lb_no _ k its tail tn (w_tier w) F V (tier_value _ _ _ SY) (or_intror TI)) in E. cbn in E. discriminate. }
    destruct (tier_of_some (envOf (o_fs o) region D) w) as (tr & TR & TN); [congruence|].
    destruct (lb_line (envOf (o_fs o) region D) k its tail w enc tn t own tr F SY) as (qs & EL & _); auto.
    rewrite EL in E. cbn [obind snd fst] in E. injection E as <-. eexists. cbn [o_proc o_next]. rewrite setProc_same. split; [reflexivity|]. cbn [st_of conf_of l_h h_frag h_notargets h_nolb h_tier enc_of l_encap freshState t_ft].
    split; [reflexivity|]. split; [reflexivity|]. split; [reflexivity|]. split; [reflexivity|]. split; [eapply conf_fits; eauto|]. split; [unfold sensible in SE; rewrite Forall_forall in SE; apply SE; cbn; auto 10|]. intros r own' ET. split; [intros W; specialize (TN W); congruence|].
    destruct (tier_region _ _ _ _ _ _ _ TR ET) as (n & ->). unfold region. destruct (is (Some tn) n); lia.
  - match goal with H : allowed _ _ |- _ => destruct H as (SE & US) end. change (streq (str "flowlb") (str "lb")) with false in E. rewrite streq_refl in E. cbv iota in E. unfold startFlowLb in E. destruct flowlb_table as [TO RQ].
    match goal with H1 : Forall (item_ok flowlbOpts) its, H2 : says flowlbOpts its w |- _ => rename H1 into F, H2 into SY end.
    rewrite (value_at flowlbOpts its tail 1 _ "lbshm" _ TO F RQ eq_refl eq_refl (tier_value _ _ _ SY)) in E.
    destruct (mapped (o_fs o) (o_next o) _) as [f1| | |]; try discriminate. cbn [obind] in E.
    destruct (tierOf (envOf (o_fs o) (fun _ => o_next o) D) (w_tier w)) as [q|] eqn:TI.
    2:{ rewrite (flowlb_no _ k its tail (w_tier w) F (tier_value _ _ _ SY) TI) in E. cbn in E. discriminate. }
    destruct (tier_of_some (envOf (o_fs o) (fun _ => o_next o) D) w) as (tr & TR & TN); [congruence|].
    match goal with H1 : number flowlbOpts its "nolb_fwmark" nolb, H2 : value_of flowlbOpts its "promiscuous_ping" ?p |- _ =>
      destruct (flowlb_line (envOf (o_fs o) (fun _ => o_next o) D) k its tail w nolb p tr F SY H1 H2) as (qs & EL & _); auto end.
    rewrite EL in E. cbn [obind snd fst] in E. injection E as <-. eexists. cbn [o_proc o_next]. rewrite setProc_same. split; [reflexivity|]. cbn [st_of conf_of h_frag h_notargets h_nolb h_tier enc_of freshState t_ft].
    split; [reflexivity|]. split; [reflexivity|]. split; [reflexivity|]. split; [reflexivity|]. split; [eapply conf_fits; eauto|]. split; [unfold sensible in SE; rewrite Forall_forall in SE; apply SE; cbn; auto 10|]. intros r own' ET. split; [intros W; specialize (TN W); congruence|].
    destruct (tier_region _ _ _ _ _ _ _ TR ET) as (n & ->). lia.
Qed.
Lemma odos_app vs0 vs1 : forall o o' os, odos o (vs0 ++ vs1) = Ok (o', os) -> exists o1 os0 os1, odos o vs0 = Ok (o1, os0) /\ odos o1 vs1 = Ok (o', os1) /\ os = os0 ++ os1 /\ length os0 = length vs0.
Proof.
  induction vs0 as [|v vs0 IH]; intros o o' os E; cbn [app odos] in E; [exists o, [], os; auto|]. destruct (odo o v) as [[o2 ob]| | |] eqn:E1; try discriminate. cbn [obind fst snd] in E.
  destruct (odos o2 (vs0 ++ vs1)) as [[o3 os3]| | |] eqn:E2; try discriminate. cbn [obind fst snd] in E. injection E as <- <-. destruct (IH _ _ _ E2) as (o1 & os0 & os1 & A & B & -> & L).
  exists o1, (ob :: os0), os1. cbn [odos]. rewrite E1. cbn [obind fst snd]. rewrite A. cbn [obind fst snd]. split; [reflexivity|]. split; [exact B|]. split; [reflexivity|cbn; lia].
Qed.
Lemma same_way vs0 v u vs1 o os0 os1 k enc w none p1 now done eth data m p2 d :
  odos noHost (vs0 ++ v :: vs1) = Ok (o, os0 ++ Started true :: os1) -> length os0 = length vs0 -> meant v u -> steers u k enc w none -> 0 < w_size w -> w_ttl w <= 4294 ->
  Forall (stays k) vs1 -> w_tier w = None \/ Forall no_line vs1 ->
  came k vs1 os1 = p1 ++ (now, done, eth, data, m) :: p2 -> clock 0 (map fst (came k vs1 os1)) ->
  frag_of enc eth data true d -> ~ In m none -> follow enc (w_ttl w * 1000000) d m none now (map fst p2) (map snd p2).
Proof.
  intros E L0 M S PS TT ST NT CA CL FO NM. destruct (odos_app vs0 (v :: vs1) _ _ _ E) as (oa & osa & osb & EA & EB & EQ & LA).
  assert (os0 = osa /\ Started true :: os1 = osb) as (<- & <-). { assert (X : length os0 = length osa) by congruence. clear - EQ X. revert osa EQ X. induction os0 as [|x l IH]; intros [|y m] EQ X; cbn in *; try discriminate; auto. injection EQ as -> EQ. destruct (IH m EQ) as (-> & ->); auto. }
  cbn [odos] in EB. destruct (odo oa v) as [[o1 ob]| | |] eqn:E1; try discriminate. cbn [obind fst snd] in EB. destruct (odos o1 vs1) as [[o2 os2]| | |] eqn:E2; try discriminate. cbn [obind fst snd] in EB. injection EB as <- -> ->.
  destruct (start_job oa v o1 u k enc w none E1 M S PS) as (j & J & FT & FC & EN & -> & CS & TL & TI).
  assert (T : exists T, forall r own, h_tier (conf_of j) = Some (r, own) -> memOf (o_fs o1) r = T).
  { destruct (h_tier (conf_of j)) as [[r own]|]; [exists (memOf (o_fs o1) r); congruence|exists (mkMag 0 0 [] [] []); discriminate]. } destruct T as (T & HT).
  assert (HD : handled (prog_of j) (tier_table (conf_of j) T) (t_ft (st_of j)) (map fst (came k vs1 os1)) (map snd (came k vs1 os1))).
  { apply (all_handled k T vs1 o1 o2 os1 j E2 ST J). intros r own H. destruct (TI r own H) as (W & R). split; [destruct NT; [contradiction|assumption]|]. split; [exact R|]. exact (HT r own H). }
  rewrite CA in HD, CL. rewrite !map_app in HD. rewrite map_app in CL. cbn [map fst snd] in HD, CL. rewrite FT in HD.
  assert (LL : length (map snd p1) = length (map fst p1)) by (rewrite !map_length; reflexivity).
  assert (TE : w_ttl w * 1000000 = Frag_Model.g_ttl (h_frag (conf_of j))) by (rewrite FC; unfold Frag_Model.g_ttl, frag_conf, u32, two32; cbn [Frag_Model.g_millis]; rewrite Z.mod_small; lia). rewrite TE. rewrite <- FC in CS.
  destruct j as [g s|h s]; cbn [prog_of conf_of enc_of] in *; subst enc.
  - eapply (Steer2_Proofs.steer_lb g T CS); eauto.
  - eapply (Steer2_Proofs.steer_flowlb h T CS); eauto.
Qed.
