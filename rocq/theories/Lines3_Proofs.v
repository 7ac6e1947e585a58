(** Lines on tables: any line, deleted tables, large marks (C76). *)
From Coq Require Import String Znumtheory.
From Verif Require Import Base Lists Cstr_Model Rangeset_Model Rangeset_Spec Prime_Model Prime_Proofs Match_Proofs Maglev_Model Config_Model Maglev_Spec Config_Proofs
  MaglevThms_Proofs Opt_Model Opt_Spec Util_Proofs Flow2_Proofs Opt_Proofs Opt2_Proofs Start_Spec Start_Proofs Shm_Model Shm_Spec Shm_Proofs Shm2_Proofs Shm3_Proofs
  Shm4_Proofs Shm5_Proofs Lines_Model Lines_Spec Lines_Proofs Lines2_Proofs.

(** ** What any line can do *)
(** A line with the option --shm of this object *)
Definition names_object (ws : list chars) (x : chars) : Prop :=
  exists c opts its tail shm, ws = c :: line its tail /\ In opts [initOpts; configOpts; deleteOpts] /\ Forall (item_ok opts) its /\
    value_of opts its "shm" (Some shm) /\ object shm x.

Inductive effect (h : shmfs) (ws : list chars) : shmfs -> Prop :=
| ef_same : effect h ws h
| ef_create x f : names_object ws x -> effect h ws (create h x f)
| ef_forget x : names_object ws x -> effect h ws (forget h x)
| ef_set x i f : names_object ws x -> s_ino h x = Some i -> effect h ws (setData h i f).

Lemma named opts c ws vals rest j : In opts [initOpts; configOpts; deleteOpts] -> table_ok opts -> parseOptions opts ws = Ok (Parsed vals rest) ->
  (exists o, znth opts j = Some o /\ p_name o = str "shm") -> forall shm x, znth vals j = Some (Some shm) -> shmName shm = Some x -> names_object (c :: ws) x.
Proof.
  intros I T P (o & O & N) shm x V SN. destruct (accepted_line opts ws vals rest T P) as (its & tail & -> & F & _ & _ & _ & HV).
  exists c, opts, its, tail, shm. split; [reflexivity|]. split; [exact I|]. split; [exact F|]. split; [|apply name_object; exact SN]. exists j, o. auto.
Qed.

Lemma run_effect h i c h' st out : runOn h i c = Ok (h', st, out) -> h' = h \/ exists f, h' = setData h i f.
Proof. unfold runOn. destruct (wrun (s_data h i) c) as [[f tr]| | |]; intros H; try discriminate; injection H as <- _ _; eauto. Qed.
Lemma open_ino h shm i : openShm h shm = Some i -> exists x, shmName shm = Some x /\ s_ino h x = Some i.
Proof. unfold openShm. destruct (shmName shm) as [x|]; [|discriminate]. destruct (s_ino h x) as [j|] eqn:E; [|discriminate]. destruct (s_data h j); [discriminate|]. intros H. injection H as <-. eauto. Qed.

Lemma exec_effect e h ws h' st out : exec e h ws = Ok (h', st, out) -> effect h ws h'.
Proof.
  destruct ws as [|c ws]; cbn [exec]; [intros H; injection H as <- _ _; constructor|].
  destruct (streq c (str "init")).
  { unfold lineInit, withOptions. destruct (parseOptions initOpts ws) as [[| |vals rest]| | |] eqn:P; cbn [obind]; intros H; try discriminate; try (injection H as <- _ _; constructor).
    destruct vals as [|v0 [|[own|] [|[shm|] [|[n|] [|[m|] [|]]]]]]; try discriminate.
    destruct (if u32 (atoi m) <? 3 then Ok 3 else primeBelow (u32 (atoi m))) as [p| | |]; cbn [obind] in H; try discriminate.
    destruct (u32 (atoi n) >? p); [injection H as <- _ _; constructor|]. destruct (shmName shm) as [x|] eqn:SN; [|injection H as <- _ _; constructor].
    destruct (initShm (atoi own) p (u32 (atoi n)) (ie_garbage e) (ie_writes e) (ie_rand e)) as [[f g]| | |]; cbn [obind] in H; try discriminate. injection H as <- _ _.
    apply ef_create. eapply (named initOpts c ws _ rest 2); [cbn; tauto|apply init_table|exact P|eexists; split; reflexivity|reflexivity|exact SN]. }
  destruct (streq c (str "delete")).
  { unfold lineDelete, withOptions. destruct (parseOptions deleteOpts ws) as [[| |vals rest]| | |] eqn:P; cbn [obind]; intros H; try discriminate; try (injection H as <- _ _; constructor).
    destruct vals as [|v0 [|[shm|] [|]]]; try discriminate. destruct (shmName shm) as [x|] eqn:SN; [|injection H as <- _ _; constructor]. injection H as <- _ _.
    apply ef_forget. eapply (named deleteOpts c ws _ rest 1); [cbn; tauto|apply delete_table|exact P|eexists; split; reflexivity|reflexivity|exact SN]. }
  destruct (streq c (str "activate")).
  { unfold lineActivate, withOptions. destruct (parseOptions configOpts ws) as [[| |vals rest]| | |] eqn:P; cbn [obind]; intros H; try discriminate; try (injection H as <- _ _; constructor).
    destruct vals as [|v0 [|[shm|] [|index [|]]]]; try discriminate. destruct (openShm h shm) as [i|] eqn:OP; [|injection H as <- _ _; constructor].
    destruct (open_ino h shm i OP) as (x & SN & HI).
    assert (NX : names_object (c :: ws) x) by (eapply (named configOpts c ws _ rest 1); [cbn; tauto|apply config_table|exact P|eexists; split; reflexivity|reflexivity|exact SN]).
    assert (G : h' = h \/ exists f, h' = setData h i f).
    { destruct index as [t|]; [destruct rest as [|w rest]|]; try (eapply run_effect; eassumption).
      destruct (map_view (s_data h i)); cbn [obind] in H; try discriminate. injection H as <- _ _. auto. }
    destruct G as [->|(f & ->)]; [constructor|eapply ef_set; eauto]. }
  destruct (streq c (str "deactivate")).
  { unfold lineDeactivate, withOptions. destruct (parseOptions configOpts ws) as [[| |vals rest]| | |] eqn:P; cbn [obind]; intros H; try discriminate; try (injection H as <- _ _; constructor).
    destruct vals as [|v0 [|[shm|] [|index [|]]]]; try discriminate. destruct (openShm h shm) as [i|] eqn:OP; [|injection H as <- _ _; constructor].
    destruct (open_ino h shm i OP) as (x & SN & HI).
    assert (NX : names_object (c :: ws) x) by (eapply (named configOpts c ws _ rest 1); [cbn; tauto|apply config_table|exact P|eexists; split; reflexivity|reflexivity|exact SN]).
    assert (G : h' = h \/ exists f, h' = setData h i f) by (destruct index as [t|]; eapply run_effect; eassumption).
    destruct G as [->|(f & ->)]; [constructor|eapply ef_set; eauto]. }
  destruct (streq c (str "show")).
  { unfold lineShow, withOptions. destruct (parseOptions showOpts ws) as [[| |vals rest]| | |] eqn:P; cbn [obind]; intros H; try discriminate; try (injection H as <- _ _; constructor).
    destruct vals as [|v0 [|[shm|] [|]]]; try discriminate. destruct (openShm h shm) as [i|] eqn:OP; [|injection H as <- _ _; constructor].
    destruct (cmdShow shm (s_data h i)); cbn [obind] in H; try discriminate. injection H as <- _ _. constructor. }
  destruct (streq c (str "primebelow")); [|intros H; injection H as <- _ _; constructor].
  unfold linePrime, withOptions. destruct (parseOptions noOpts ws) as [[| |vals rest]| | |] eqn:P; cbn [obind]; intros H; try discriminate; try (injection H as <- _ _; constructor).
  destruct rest as [|w rest]; [injection H as <- _ _; constructor|]. destruct (primeBelow (u32 (atoi w))); try discriminate; injection H as <- _ _; constructor.
Qed.

(** ** Files *)
Definition fs_ok (h : shmfs) : Prop :=
  (forall x i, s_ino h x = Some i -> i < s_next h) /\ (forall x y i, s_ino h x = Some i -> s_ino h y = Some i -> x = y) /\
  (forall k i vw, s_map h k = Some (i, vw) -> i < s_next h).

Lemma effect_ok h ws h' : fs_ok h -> effect h ws h' -> fs_ok h' /\ s_next h <= s_next h' /\ s_map h' = s_map h /\
  (forall i x, i < s_next h -> s_ino h' x = Some i -> s_ino h x = Some i) /\
  (forall i, i < s_next h -> (forall x, s_ino h x <> Some i) -> s_data h' i = s_data h i) /\
  exists x, (h' = h \/ names_object ws x) /\ forall y, y <> x -> s_ino h' y = s_ino h y /\ forall i, s_ino h y = Some i -> s_data h' i = s_data h i.
Proof.
  intros (A & B & C) E. inversion E as [|x f NX|x NX|x i f NX HI]; subst.
  - split; [split; auto|]. split; [lia|]. split; [auto|]. split; [auto|]. split; [auto|]. exists []. auto.
  - unfold create. destruct (s_ino h x) as [i|] eqn:HI.
    + unfold setData, updz. split; [split; [|split]; cbn; auto|]. cbn [s_next s_map s_ino s_data]. split; [lia|]. split; [auto|]. split; [auto|]. split.
      * intros j J U. destruct (j =? i) eqn:E1; [|reflexivity]. apply Z.eqb_eq in E1. subst j. destruct (U x HI).
      * exists x. split; [auto|]. intros y N. split; [reflexivity|]. intros j J. destruct (j =? i) eqn:E1; [|reflexivity]. apply Z.eqb_eq in E1. subst j. destruct N. eauto.
    + unfold updz, upd1. cbn [s_next s_map s_ino s_data]. split; [split; [|split]; cbn [s_next s_map s_ino s_data]|].
      * intros y i. destruct (streq y x); intros H; [injection H as <-; lia|]. apply A in H. lia.
      * intros y z i. destruct (streq_dec y x) as [(-> & ->)|(N & ->)]; destruct (streq_dec z x) as [(-> & ->)|(N' & ->)]; intros H1 H2; auto.
        -- injection H1 as <-. apply A in H2. lia.
        -- injection H2 as <-. apply A in H1. lia.
        -- eauto.
      * intros k i vw H. apply C in H. lia.
      * split; [lia|]. split; [auto|]. split.
        { intros i y J. destruct (streq y x); [|auto]. intros H. injection H as <-. lia. }
        split.
        { intros j J U. destruct (j =? s_next h) eqn:E1; [lia|reflexivity]. }
        exists x. split; [auto|]. intros y N. destruct (streq_dec y x) as [(-> & _)|(_ & ->)]; [contradiction|]. split; [reflexivity|].
        intros j J. apply A in J. destruct (j =? s_next h) eqn:E1; [lia|reflexivity].
  - unfold forget, upd1. cbn [s_next s_map s_ino s_data]. split; [split; [|split]; cbn [s_next s_map s_ino s_data]|].
    + intros y i. destruct (streq y x); [discriminate|apply A].
    + intros y z i. destruct (streq y x); [discriminate|]. destruct (streq z x); [discriminate|]. apply B.
    + exact C.
    + split; [lia|]. split; [auto|]. split; [intros i y J; destruct (streq y x); [discriminate|auto]|]. split; [auto|].
      exists x. split; [auto|]. intros y N. destruct (streq_dec y x) as [(-> & _)|(_ & ->)]; [contradiction|]. auto.
  - unfold setData, updz. split; [split; [|split]; cbn; auto|]. cbn [s_next s_map s_ino s_data]. split; [lia|]. split; [auto|]. split; [auto|]. split.
    + intros j J U. destruct (j =? i) eqn:E1; [|reflexivity]. apply Z.eqb_eq in E1. subst j. destruct (U x HI).
    + exists x. split; [auto|]. intros y N. split; [reflexivity|]. intros j J. destruct (j =? i) eqn:E1; [|reflexivity]. apply Z.eqb_eq in E1. subst j. destruct N. eauto.
Qed.

(** Any events *)
Definition maps_k (k : Z) (v : hevent) : bool := match v with EMap j _ => j =? k | _ => false end.
Lemma event_ok h a h' o : fs_ok h -> hdo h a = Ok (h', o) -> fs_ok h' /\ s_next h <= s_next h' /\
  (forall k, maps_k k a = false -> s_map h' k = s_map h k) /\
  (forall i x, i < s_next h -> s_ino h' x = Some i -> s_ino h x = Some i) /\
  (forall i, i < s_next h -> (forall x, s_ino h x <> Some i) -> s_data h' i = s_data h i).
Proof.
  intros OKh H. destruct a as [e ws|k shm|k hash]; cbn [hdo] in H.
  - destruct (exec e h ws) as [[[h1 st] out]| | |] eqn:E; cbn [obind] in H; try discriminate. injection H as <- <-.
    destruct (effect_ok h ws h1 OKh (exec_effect _ _ _ _ _ _ E)) as (A1 & A2 & A3 & A4 & A5 & _). split; [exact A1|]. split; [exact A2|]. split; [intros k _; rewrite A3; reflexivity|]. auto.
  - pose proof OKh as (A & B & C). unfold mapTable in H. destruct (openShm h shm) as [i|] eqn:OP; cbn [obind] in H.
    + destruct (map_view (s_data h i)) as [vw| | |] eqn:MV; cbn [obind fst snd] in H; try discriminate. injection H as <- <-. destruct (open_ino _ _ _ OP) as (x & SN & HI).
      split; [split; [|split]; cbn; auto|].
      * intros j i' vw'. unfold updz. destruct (j =? k); intros Q; [injection Q as <- <-; eauto|eauto].
      * cbn. split; [lia|]. split; [|auto]. intros j J. unfold updz. destruct (j =? k) eqn:E1; [apply Z.eqb_eq in E1; subst; rewrite Z.eqb_refl in J; discriminate|reflexivity].
    + injection H as <- <-. split; [split; [|split]; cbn; auto|].
      * intros j i' vw'. unfold updz. destruct (j =? k); [discriminate|eauto].
      * cbn. split; [lia|]. split; [|auto]. intros j J. unfold updz. destruct (j =? k) eqn:E1; [apply Z.eqb_eq in E1; subst; rewrite Z.eqb_refl in J; discriminate|reflexivity].
  - assert (h' = h). { destruct (s_map h k) as [[i vw]|]; [destruct (wread2 vw (s_data h i) (s_data h i) hash); cbn [obind] in H; try discriminate|]; injection H as <- _; reflexivity. }
    subst h'. split; [exact OKh|]. split; [lia|]. auto.
Qed.
Lemma fs_empty : fs_ok emptyFs.
Proof. unfold fs_ok, emptyFs. cbn. repeat split; intros; discriminate. Qed.

Definition quiet (k : Z) (vs : list hevent) : Prop := Forall (fun v => maps_k k v = false) vs.

(** The only name of file i is x, and stays so. *)
Lemma only_name : forall vs h h' os i x k, fs_ok h -> hdos h vs = Ok (h', os) -> quiet k vs -> i < s_next h ->
  (forall y, s_ino h y = Some i -> y = x) -> fs_ok h' /\ i < s_next h' /\ s_map h' k = s_map h k /\ (forall y, s_ino h' y = Some i -> y = x).
Proof.
  induction vs as [|a vs IH]; intros h h' os i x k OKh H Q L U; cbn [hdos] in H; [injection H as <- _; auto|].
  destruct (hdo h a) as [[h1 o]| | |] eqn:E; cbn [obind fst snd] in H; try discriminate. destruct (hdos h1 vs) as [[h2 os2]| | |] eqn:E2; cbn [obind fst snd] in H; try discriminate.
  injection H as <- _. destruct (event_ok h a h1 o OKh E) as (A1 & A2 & A3 & A4 & _).
  destruct (IH h1 h2 os2 i x k A1 E2 (Forall_inv_tail Q) ltac:(lia)) as (B1 & B2 & B3 & B4). { intros y Y. apply U. apply (A4 i y L Y). }
  split; [exact B1|]. split; [exact B2|]. split; [|exact B4]. rewrite B3. apply A3. exact (Forall_inv Q).
Qed.
(** A file without name does not change. *)
Lemma nameless : forall vs h h' os i k, fs_ok h -> hdos h vs = Ok (h', os) -> quiet k vs -> i < s_next h ->
  (forall y, s_ino h y <> Some i) -> s_data h' i = s_data h i /\ s_map h' k = s_map h k.
Proof.
  induction vs as [|a vs IH]; intros h h' os i k OKh H Q L U; cbn [hdos] in H; [injection H as <- _; auto|].
  destruct (hdo h a) as [[h1 o]| | |] eqn:E; cbn [obind fst snd] in H; try discriminate. destruct (hdos h1 vs) as [[h2 os2]| | |] eqn:E2; cbn [obind fst snd] in H; try discriminate.
  injection H as <- _. destruct (event_ok h a h1 o OKh E) as (A1 & A2 & A3 & A4 & A5).
  destruct (IH h1 h2 os2 i k A1 E2 (Forall_inv_tail Q) ltac:(lia)) as (B1 & B2). { intros y Y. apply (U y). apply (A4 i y L Y). }
  split; [rewrite B1; apply A5; auto|]. rewrite B2. apply A3. exact (Forall_inv Q).
Qed.
Lemma events_ok : forall vs h h' os, fs_ok h -> hdos h vs = Ok (h', os) -> fs_ok h'.
Proof.
  induction vs as [|a vs IH]; intros h h' os OKh H; cbn [hdos] in H; [injection H as <- _; auto|].
  destruct (hdo h a) as [[h1 o]| | |] eqn:E; cbn [obind fst snd] in H; try discriminate. destruct (hdos h1 vs) as [[h2 os2]| | |] eqn:E2; cbn [obind fst snd] in H; try discriminate.
  injection H as <- _. destruct (event_ok h a h1 o OKh E) as (A1 & _). eauto.
Qed.
Lemma hdos_app : forall a h b h' os, hdos h (a ++ b) = Ok (h', os) -> exists h1 o1 o2, hdos h a = Ok (h1, o1) /\ hdos h1 b = Ok (h', o2) /\ os = o1 ++ o2.
Proof.
  induction a as [|v a IH]; intros h b h' os H; cbn [app hdos] in *; [exists h, [], os; auto|].
  destruct (hdo h v) as [[h1 o]| | |]; cbn [obind fst snd] in H; try discriminate. destruct (hdos h1 (a ++ b)) as [[h2 os2]| | |] eqn:E; cbn [obind fst snd] in H; try discriminate.
  injection H as <- <-. destruct (IH _ _ _ _ E) as (h3 & o1 & o2 & E1 & E2 & ->). exists h3, (o :: o1), o2. cbn [obind fst snd]. rewrite E1. auto.
Qed.
Lemma hdos_cons v vs h h' os : hdos h (v :: vs) = Ok (h', os) -> exists h1 o os1, hdo h v = Ok (h1, o) /\ hdos h1 vs = Ok (h', os1) /\ os = o :: os1.
Proof.
  cbn [hdos]. intros H. destruct (hdo h v) as [[h1 o]| | |]; cbn [obind fst snd] in H; try discriminate. destruct (hdos h1 vs) as [[h2 os2]| | |] eqn:E; cbn [obind fst snd] in H; try discriminate.
  injection H as <- <-. eauto 10.
Qed.

Lemma deleted_table vs1 vs2 vs3 k shm x e ws h1 os1 h2 os2 hash : object shm x -> asks ws (RDelete x) -> quiet k vs2 -> quiet k vs3 ->
  hdos emptyFs (vs1 ++ EMap k shm :: vs2 ++ [ELine e ws]) = Ok (h1, os1) -> hdos h1 vs3 = Ok (h2, os2) ->
  omap snd (hdo h2 (ELook k hash)) = omap snd (hdo h1 (ELook k hash)).
Proof.
  intros O A Q2 Q3 H1 H2. destruct (hdos_app _ _ _ _ _ H1) as (ha & oa & ob & Ha & Hb & _). destruct (hdos_cons _ _ _ _ _ Hb) as (hb & o & oc & Em & Hc & _).
  destruct (hdos_app _ _ _ _ _ Hc) as (hc & od & oe & Hd & He & _). destruct (hdos_cons _ _ _ _ _ He) as (hd & o' & of & Ed & Hf & _). cbn [hdos] in Hf. injection Hf as <- _.
  pose proof (events_ok _ _ _ _ fs_empty Ha) as OKa. destruct (event_ok _ _ _ _ OKa Em) as (OKb & Nb & _). cbn [hdo] in Em. unfold mapTable in Em.
  cbn [hdo] in Ed. rewrite (asks_delete _ _ A) in Ed. cbn [obind] in Ed. injection Ed as <- _.
  destruct (openShm ha shm) as [i|] eqn:OP; cbn [obind] in Em.
  - destruct (map_view (s_data ha i)) as [vw| | |]; cbn [obind fst snd] in Em; try discriminate. injection Em as <- <-. destruct (open_ino _ _ _ OP) as (x' & SN & HI).
    apply name_object in O. assert (x' = x) by congruence. subst x'.
    assert (Li : i < s_next ha) by (apply OKa in HI; exact HI).
    assert (U : forall y, s_ino ha y = Some i -> y = x) by (intros y Y; apply OKa with (i := i); auto).
    destruct (only_name vs2 _ hc od i x k OKb Hd Q2 Li U) as (OKc & Lc & Mc & Uc). cbn [s_map] in Mc. unfold updz in Mc. rewrite Z.eqb_refl in Mc.
    assert (OKd : fs_ok (forget hc x)).
    { destruct OKc as (P1 & P2 & P3). unfold forget, upd1. split; [|split]; cbn; auto; intros y; [intros j; destruct (streq y x); [discriminate|apply P1]|intros z j; destruct (streq y x); [discriminate|]; destruct (streq z x); [discriminate|]; apply P2]. }
    destruct (nameless vs3 (forget hc x) h2 os2 i k OKd H2 Q3 Lc) as (D & M).
    { intros y. unfold forget, upd1. cbn [s_ino]. destruct (streq_dec y x) as [(-> & ->)|(N & ->)]; [discriminate|]. intros Y. apply N. auto. }
    cbn [hdo]. rewrite M. unfold forget. cbn [s_map s_data]. rewrite Mc, D. cbn [s_data]. unfold forget. cbn [s_data]. destruct (wread2 vw (s_data hc i) (s_data hc i) hash); reflexivity.
  - injection Em as <- <-. assert (Mc : forall vs h h' os, quiet k vs -> fs_ok h -> hdos h vs = Ok (h', os) -> s_map h' k = s_map h k).
    { induction vs as [|v vs IH]; intros h h' os Q OKh H; [cbn in H; injection H as <- _; reflexivity|]. destruct (hdos_cons _ _ _ _ _ H) as (hx & ox & oy & E1 & E2 & _).
      destruct (event_ok _ _ _ _ OKh E1) as (B1 & _ & B3 & _). rewrite (IH _ _ _ (Forall_inv_tail Q) B1 E2). apply B3. exact (Forall_inv Q). }
    pose proof (Mc _ _ _ _ Q2 OKb Hd) as M1. cbn [s_map] in M1. unfold updz in M1. rewrite Z.eqb_refl in M1. pose proof (events_ok _ _ _ _ OKb Hd) as OKc.
    assert (OKd : fs_ok (forget hc x)).
    { destruct OKc as (P1 & P2 & P3). unfold forget, upd1. split; [|split]; cbn; auto; intros y; [intros j; destruct (streq y x); [discriminate|apply P1]|intros z j; destruct (streq y x); [discriminate|]; destruct (streq z x); [discriminate|]; apply P2]. }
    pose proof (Mc _ _ _ _ Q3 OKd H2) as M2. unfold forget in M2. cbn [s_map] in M2. cbn [hdo]. rewrite M2. unfold forget. cbn [s_map]. rewrite M1. reflexivity.
Qed.

Lemma one_object vs h os e ws h' st out : hdos emptyFs vs = Ok (h, os) -> exec e h ws = Ok (h', st, out) -> s_map h' = s_map h /\
  exists x, (h' = h \/ names_object ws x) /\ forall y, y <> x -> s_ino h' y = s_ino h y /\ forall i, s_ino h y = Some i -> s_data h' i = s_data h i.
Proof.
  intros H E. destruct (effect_ok h ws h' (events_ok _ _ _ _ fs_empty H) (exec_effect _ _ _ _ _ _ E)) as (_ & _ & A & _ & _ & B). auto.
Qed.

(** ** Marks from 2^31 on *)
Lemma atoi_large d fw : is_dec d fw -> 2147483648 <= fw < 4294967296 -> atoi d = fw - 4294967296.
Proof.
  intros (D1 & D2 & D3 & D4) L. destruct d as [|c d]; [congruence|]. pose proof D2 as D2'. apply Forall_cons_iff in D2'. destruct D2' as (C & D2').
  unfold atoi, strtol. cbn [skip]. replace (isspace c) with false by (unfold isspace; lia).
  replace (c =? 45) with false by lia. replace (c =? 43) with false by lia. change (10 =? 0) with false. cbv iota.
  pose proof (digits_all 10 (fun c => c - 48) (c :: d) 0 0 []) as DA. rewrite app_nil_r in DA. rewrite DA; [|..].
  - rewrite D3. replace (0 + zlen (c :: d) =? 0) with false by (unfold zlen; cbn [length]; lia). cbn [fst].
    rewrite clamp by (unfold LONG_MAX; lia). unfold s32, u32. rewrite Z.mod_small by (unfold two32; lia).
    destruct (fw <? _) eqn:E; unfold two32 in *; lia.
  - eapply Forall_impl; [|exact D2]. intros x X. exists (x - 48). cbn beta in X. unfold digit. replace ((48 <=? x) && (x <=? 57)) with true by lia.
    split; auto. split; [lia|auto].
  - exact I.
Qed.
Lemma actives_neg : forall (a : list Z) j y z i, znth a j = Some y -> y < 0 -> z < 0 -> actives (zupd a j z) i = actives a i.
Proof.
  induction a as [|x a IH]; intros j y z i J Y Z; [apply znth_some_range in J; cbn in J; lia|]. rewrite znth_cons in J. unfold zupd in *. destruct (j =? 0) eqn:E.
  - injection J as ->. apply Z.eqb_eq in E. subst j. cbn. destruct (0 <=? y) eqn:E1; [lia|]. destruct (0 <=? z) eqn:E2; [lia|]. reflexivity.
  - pose proof (znth_some_range _ _ _ _ J) as R. destruct (j <? 0) eqn:E1; [lia|]. replace (Z.to_nat j) with (S (Z.to_nat (j - 1))) by lia. cbn [upd actives].
    specialize (IH (j - 1) y z (i + 1) J Y Z). destruct (j - 1 <? 0) eqn:E2; [lia|]. rewrite IH. reflexivity.
Qed.

Lemma map_neg : forall (a : list Z) j y z, znth a j = Some y -> y < 0 -> z < 0 -> map dyn_active (zupd a j z) = map dyn_active a.
Proof.
  intros a j y z J Y Z. apply znth_ext.
  - unfold zlen. rewrite !map_length, zupd_length. reflexivity.
  - intros i _. rewrite !znth_map. destruct (Z.eq_dec j i) as [->|N]; [|rewrite znth_zupd_neq by exact N; reflexivity].
    rewrite znth_zupd_eq by (apply znth_some_range in J; lia). rewrite J. cbn [option_map]. f_equal. unfold dyn_active. lia.
Qed.
(** Activating a negative mark *)
Lemma neg_activate s z s' tr : wf s -> synced s -> z < 0 -> run_cmd s (Activate [z]) = Ok (s', tr) ->
  mM s' = mM s /\ mlookup s' = mlookup s /\ actives (mactive s') 0 = actives (mactive s) 0 /\
  forall j fw, 0 <= fw -> znth (mactive s) j = Some fw -> znth (mactive s') j = Some fw.
Proof.
  intros W (tr0 & SY) Z H. cbn [run_cmd activate_args] in H.
  destruct (scan_spec (mactive s) z (Z.to_nat (mN s)) 0 (-1)) as (b & fe & E & B & C); try (rewrite (wf_active _ W)); try (pose proof (wf_N _ W)); try lia.
  { left. split; [reflexivity|]. intros; lia. }
  rewrite E in H. cbn [obind] in H. destruct b; cbn [negb andb] in H; [unfold finish in H; cbn in H; injection H as <- _; cbn; auto|].
  destruct (C eq_refl) as [(-> & _)|(R & y & Y1 & Y2)]; [cbn in H; injection H as <- _; cbn; auto|].
  destruct (0 <=? fe) eqn:E1; [|lia]. rewrite aset_in_range in H by lia. cbn [obind] in H. unfold finish, magDataDyn_populate, with_active in H. cbn [mM mN mlookup mperm mactive] in H.
  rewrite (populate_active_indep _ _ _ _ _ _ _ (map_neg _ _ _ _ Y1 Y2 Z)), SY in H. cbn [obind] in H. injection H as <- _. cbn [mM mlookup mactive].
  split; [reflexivity|]. split; [reflexivity|]. split; [eapply actives_neg; eauto|].
  intros j fw P J. rewrite znth_zupd_neq; [exact J|]. intros ->. rewrite Y1 in J. injection J as ->. lia.
Qed.

(** Looking, and show *)
Definition looks (w : world) (a : hevent) : Prop :=
  match a with ELook k hash => 0 <= hash /\ w_read w k <> Lost | ELine _ l => exists shm x, asks l (RShow shm x) | EMap _ _ => False end.

Lemma large_mark vs ws w os x t its tail d fw e : Forall2 is_event vs ws -> happen start ws w os -> w_tab w x = Some t ->
  table_named configOpts its x -> no_index its -> rest_words its tail = [d] -> is_dec d fw -> 2147483648 <= fw < 4294967296 ->
  exists h h', hdos emptyFs vs = Ok (h, os) /\ hdo h (ELine e (str "activate" :: line its tail)) = Ok (h', OLine 0 []) /\
    forall a, looks w a -> omap snd (hdo h' a) = omap snd (hdo h a).
Proof.
  intros EV HA HT (F & shm & V & O) NI RW D L. destruct (events emptyFs start vs ws w os inv_start EV HA) as (h & HD & IV). exists h.
  set (z := fw - 4294967296). assert (CI : cmd_ints (Activate [z])) by (constructor; [unfold int32, z; lia|constructor]).
  destruct (run_on h w x shm (Activate [z]) t IV O HT CI) as (i & OP & RO & _). destruct (RO I) as (h' & RH & IV'). exists h'. split; [exact HD|]. split.
  { destruct (config_line its tail shm None F V NI) as (v0 & P). cbn [hdo exec].
    change (streq (str "activate") (str "init")) with false. change (streq (str "activate") (str "delete")) with false. rewrite streq_refl. cbn match.
    unfold lineActivate, withOptions. rewrite P. cbn [obind]. rewrite OP, RW. cbn [map]. rewrite (atoi_large d fw D L). fold z. rewrite RH. reflexivity. }
  assert (MP : s_map h' = s_map h). { destruct (run_effect _ _ _ _ _ _ RH) as [->|(f & ->)]; reflexivity. }
  (* the table before and after *)
  pose proof IV as (P1 & P2 & P3 & P4). pose proof IV' as (Q1 & Q2 & Q3 & Q4). pose proof (P3 x) as PX. rewrite HT in PX. destruct PX as (ix & IX & HX).
  pose proof (Q3 x) as QX. cbn [w_tab] in QX. unfold at_name in QX. rewrite streq_refl in QX. destruct QX as (ix' & IX' & HX').
  pose proof HX as (s0 & s & IA & H0 & HM & RHs & _ & _). destruct (held_facts t s0 s IA H0 RHs HM) as (F1 & F2 & F3 & F4 & F5 & F6 & F7 & F8).
  assert (RC : exists s' tr, run_cmd s (Activate [z]) = Ok (s', tr)).
  { destruct (run_cmd_total s (Activate [z]) F6 F8 ltac:(lia) (ints_int _ CI)) as [((s' & tr) & RC)|RC]; [eauto|]. apply run_die in RC. destruct RC. }
  destruct RC as (s' & tr & RC). destruct (neg_activate s z s' tr F6 F7 ltac:(unfold z; lia) RC) as (G1 & G2 & G3 & G4).
  assert (T : table_of t s) by (exists s0; auto). assert (T' : table_of (grown t (Activate [z])) s').
  { exists s0. split; [exact H0|]. cbn [grown d_cmds]. rewrite (hist_app _ _ _ _ RHs), RC. reflexivity. }
  assert (TG : forall hash y, 0 <= hash -> target s hash y -> target s' hash y).
  { intros hash y HH (l & L1 & L2). exists l. rewrite G1, G2. split; [exact L1|]. destruct L2 as [L2|(L2 & L3)]; [auto|]. right. split; [exact L2|]. apply G4; [|exact L3].
    destruct (slots_active _ _ _ _ _ IA T) as (_ & A & B). assert (RG : 0 <= hash mod mM s < mM s) by (apply Z.mod_pos_bound; lia).
    destruct (existsb (fun fw => 0 <=? fw) (mactive s)) eqn:E.
    - apply existsb_exists in E. destruct E as (fw' & I & P). apply In_znth in I. destruct I as (j & J).
      assert (EX : exists j, is_active s j) by (exists j, fw'; split; [exact J|lia]). destruct (A EX _ RG) as (i' & I1 & y' & I2 & I3). assert (i' = l) by congruence. subst i'. assert (y' = y) by congruence. lia.
    - exfalso. assert (N2 : forall j, ~ is_active s j).
      { intros j (fw' & J1 & J2). apply znth_In in J1. rewrite (proj2 (existsb_exists _ _)) in E; [discriminate|]. exists fw'. split; [exact J1|lia]. }
      rewrite (B N2 _ RG) in L1. injection L1 as <-. lia. }
  (* other files *)
  assert (INO : s_ino h' = s_ino h). { destruct (run_effect _ _ _ _ _ _ RH) as [->|(f & ->)]; reflexivity. }
  assert (IE : ix' = ix) by congruence. subst ix'.
  assert (OTH : forall j, j <> ix -> s_data h' j = s_data h j).
  { intros j J. assert (i = ix). { destruct (open_ino _ _ _ OP) as (x' & SN & HI). apply name_object in O. congruence. } subst i.
    destruct (run_effect _ _ _ _ _ _ RH) as [->|(f & ->)]; [reflexivity|]. cbn. unfold updz. destruct (j =? ix) eqn:E; [lia|reflexivity]. }
  intros a LK. destruct a as [e' l|k shm'|k hash]; cbn [looks] in LK; [|destruct LK|].
  - destruct LK as (shm' & y & A). destruct (asks_show _ _ _ A) as (O' & EX). cbn [hdo]. rewrite !EX. unfold openShm. rewrite (proj2 (name_object _ _) O'), INO.
    destruct (s_ino h y) as [j|] eqn:J; [|reflexivity]. destruct (Z.eq_dec j ix) as [->|N].
    + pose proof (held_nonempty _ _ HX) as N1. pose proof (held_nonempty _ _ HX') as N2.
      assert (E1 : match s_data h ix with [] => None | _ => Some ix end = Some ix) by (destruct (s_data h ix); [contradiction|reflexivity]).
      assert (E2 : match s_data h' ix with [] => None | _ => Some ix end = Some ix) by (destruct (s_data h' ix); [contradiction|reflexivity]).
      rewrite E1, E2. rewrite (held_show _ _ s HX T), (held_show _ _ s' HX' T'). cbn [obind omap snd grown d_own d_n]. rewrite G1, G2, G3. reflexivity.
    + rewrite (OTH j N). destruct (s_data h j); [reflexivity|]. rewrite (OTH j N). destruct (cmdShow shm' (s_data h j)); reflexivity.
  - destruct LK as (HH & NL). cbn [hdo]. rewrite MP. pose proof (P4 k) as R. destruct (w_read w k) as [|y|t1|] eqn:W; [rewrite R; reflexivity|..|contradiction].
    + destruct R as (t1 & j & vw & R1 & R2 & R3 & R4). rewrite R3. destruct (Z.eq_dec j ix) as [->|N].
      * assert (y = x) by eauto. subst y. assert (t1 = t) by congruence. subst t1. destruct (held_target _ _ hash HX HH) as (s1 & v1 & T1 & TT). assert (s1 = s) by (eapply table_same; eauto). subst s1.
        rewrite (held_look _ _ s vw hash v1 HX T R4 TT), (held_look _ _ s' vw hash v1 HX' T' R4 (TG _ _ HH TT)). reflexivity.
      * rewrite (OTH j N). destruct (wread2 _ _ _ _); reflexivity.
    + destruct R as (j & vw & R1 & R2 & R3 & R4 & R5). rewrite R1. assert (N : j <> ix) by (intros ->; apply (R4 x IX)). rewrite (OTH j N). destruct (wread2 _ _ _ _); reflexivity.
Qed.

(** ** Words that are no numbers *)
Lemma atoi_word c r : 65 <= c <= 90 \/ 97 <= c <= 122 -> atoi (c :: r) = 0.
Proof.
  intros C. unfold atoi, strtol. cbn [skip]. replace (isspace c) with false by (unfold isspace; lia).
  replace (c =? 45) with false by lia. replace (c =? 43) with false by lia. change (10 =? 0) with false. cbv iota.
  assert (D : digits 10 0 0 (c :: r) = (0, 0, c :: r)).
  { cbn [digits]. unfold digit. replace ((48 <=? c) && (c <=? 57)) with false by lia.
    destruct ((97 <=? c) && (c <=? 122)) eqn:E1; [replace (c - 87 <? 10) with false by lia; reflexivity|].
    destruct ((65 <=? c) && (c <=? 90)) eqn:E2; [replace (c - 55 <? 10) with false by lia; reflexivity|]. lia. }
  rewrite D. reflexivity.
Qed.
Lemma plain_line w : plain_word w -> exists v, parseOptions configOpts [w] = Ok (Parsed [v; Some (str "nfqlb"); None] [w]).
Proof.
  intros P. change [w] with (line [Plain w] None) at 1. change [w] with (rest_words [Plain w] None). apply config_line.
  - constructor; [exact P|constructor].
  - exists 1, (val "shm" "nfqlb"). split; [reflexivity|]. split; [reflexivity|]. right. split; [|eexists; split; reflexivity].
    intros it [<-|[]] (y & Y). exact Y.
  - exists 2, (text "index"). split; [reflexivity|]. split; [reflexivity|]. right. split; [|eexists; split; reflexivity].
    intros it [<-|[]] (y & Y). exact Y.
Qed.
Lemma word_is_zero e h c r : 65 <= c <= 90 \/ 97 <= c <= 122 -> exec e h [str "activate"; c :: r] = exec e h [str "activate"; str "0"].
Proof.
  intros C. cbn [exec]. change (streq (str "activate") (str "init")) with false. change (streq (str "activate") (str "delete")) with false. rewrite streq_refl. cbn match.
  assert (P : plain_word (c :: r)). { unfold plain_word. destruct c as [|p|p]; try lia. do 7 (try destruct p as [p|p|]); try exact I; lia. }
  destruct (plain_line (c :: r) P) as (v0 & P0). destruct (plain_line (str "0") I) as (v1 & P1). unfold lineActivate, withOptions.
  rewrite P0, P1. cbn [obind]. cbn [map]. rewrite (atoi_word c r C). reflexivity.
Qed.

(** ** primebelow *)
Lemma prime_line e h w v : is_num w v -> 2 <= v -> exists p, exec e h [str "primebelow"; w] = Ok (h, 0, dec p ++ [10]) /\
  prime p /\ p <= Z.min v 994009 /\ forall q, prime q -> q <= Z.min v 994009 -> q <= p.
Proof.
  intros N V. destruct (primeBelow_correct v V) as (p & P1 & P2 & P3). exists p. split; [|auto]. cbn [exec].
  change (streq (str "primebelow") (str "init")) with false. change (streq (str "primebelow") (str "delete")) with false.
  change (streq (str "primebelow") (str "activate")) with false. change (streq (str "primebelow") (str "deactivate")) with false.
  change (streq (str "primebelow") (str "show")) with false. rewrite streq_refl. cbn match.
  assert (PW : plain_word w). { destruct N as (R & [(D1 & D2 & _)|(d & -> & (D1 & D2 & D3 & D4))]).
    - destruct w as [|c w]; [exact I|]. apply Forall_inv in D2. unfold plain_word. destruct c as [|c|c]; try lia. do 6 (try destruct c as [c|c|]); try exact I; lia.
    - assert (0 <= - v). { rewrite <- D3. apply fold_dec_nonneg; [exact D2|lia]. } lia. }
  assert (TO : table_ok noOpts) by (pose proof tables_all_ok as T; rewrite Forall_forall in T; apply T; cbn; tauto).
  unfold linePrime, withOptions. change [w] with (line [Plain w] None).
  destruct (line_read noOpts [Plain w] None TO) as (vals & P & _); [constructor; [exact PW|constructor]| |].
  { intros j (o & O & Rq & _). apply znth_In in O. destruct O as [<-|[]]. discriminate. }
  rewrite P. cbn [obind rest_words plains app]. rewrite (atoi_num _ _ N), (u32_num v) by (destruct N as (N & _); lia). rewrite P1. reflexivity.
Qed.
