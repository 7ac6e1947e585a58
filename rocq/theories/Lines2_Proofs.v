(** Lines on tables: histories (C76). *)
From Coq Require Import String Znumtheory.
From Verif Require Import Base Lists Cstr_Model Rangeset_Model Rangeset_Spec Prime_Model Prime_Proofs Maglev_Model Config_Model Maglev_Spec Config_Proofs
  MaglevThms_Proofs Opt_Model Opt_Spec Util_Proofs Flow2_Proofs Opt_Proofs Opt2_Proofs Start_Spec Start_Proofs Shm_Model Shm_Spec Shm_Proofs Shm2_Proofs Shm3_Proofs
  Shm4_Proofs Shm5_Proofs Lines_Model Lines_Spec Lines_Proofs.

Definition inv (h : shmfs) (w : world) : Prop :=
  (forall x i, s_ino h x = Some i -> i < s_next h) /\
  (forall x y i, s_ino h x = Some i -> s_ino h y = Some i -> x = y) /\
  (forall x, match w_tab w x with None => s_ino h x = None | Some t => exists i, s_ino h x = Some i /\ held (s_data h i) t end) /\
  (forall k, match w_read w k with
             | Nobody => s_map h k = None
             | Live x => exists t i vw, w_tab w x = Some t /\ s_ino h x = Some i /\ s_map h k = Some (i, vw) /\ viewed t vw
             | Kept t => exists i vw, s_map h k = Some (i, vw) /\ viewed t vw /\ i < s_next h /\ (forall x, s_ino h x <> Some i) /\ held (s_data h i) t
             | Lost => True
             end).

Lemma inv_open h w x shm : inv h w -> object shm x ->
  match w_tab w x with
  | None => openShm h shm = None
  | Some t => exists i, s_ino h x = Some i /\ openShm h shm = Some i /\ held (s_data h i) t
  end.
Proof.
  intros (_ & _ & I3 & _) O. apply name_object in O. unfold openShm. rewrite O. specialize (I3 x). destruct (w_tab w x) as [t|].
  - destruct I3 as (i & -> & H). exists i. split; [reflexivity|]. split; [|exact H]. pose proof (held_nonempty _ _ H). destruct (s_data h i); [contradiction|reflexivity].
  - rewrite I3. reflexivity.
Qed.

Lemma streq_dec x y : {x = y /\ streq x y = true} + {x <> y /\ streq x y = false}.
Proof. destruct (streq x y) eqn:E; [left; split; [apply streq_eq; exact E|reflexivity]|right; split; [intros ->; rewrite streq_refl in E; discriminate|reflexivity]]. Qed.

(** A command changes the file of x. *)
Lemma inv_cmd h w x t t' i f : inv h w -> w_tab w x = Some t -> s_ino h x = Some i -> held f t' ->
  d_m t' = d_m t -> d_n t' = d_n t -> d_rand t' = d_rand t -> inv (setData h i f) (mkW (at_name (w_tab w) x (Some t')) (w_read w)).
Proof.
  intros (I1 & I2 & I3 & I4) HT HI HF E1 E2 E3. unfold inv, setData, at_name, updz. cbn [s_ino s_data s_next s_map w_tab w_read].
  split; [exact I1|]. split; [exact I2|]. split.
  - intros y. destruct (streq_dec y x) as [(-> & ->)|(N & ->)].
    + exists i. split; [exact HI|]. rewrite Z.eqb_refl. exact HF.
    + specialize (I3 y). destruct (w_tab w y) as [u|]; [|exact I3]. destruct I3 as (j & J & H). exists j. split; [exact J|].
      destruct (j =? i) eqn:E; [|exact H]. apply Z.eqb_eq in E. subst j. destruct N. exact (I2 _ _ _ J HI).
  - intros k. specialize (I4 k). destruct (w_read w k) as [|y|u|]; auto.
    + destruct I4 as (u & j & vw & U & J & M & V). destruct (streq_dec y x) as [(-> & ->)|(N & ->)].
      * exists t', j, vw. repeat (split; [auto|]). assert (u = t) by congruence. subst u. unfold viewed in *. rewrite E1, E2, E3. exact V.
      * exists u, j, vw. auto.
    + destruct I4 as (j & vw & M & V & LT & U & H). exists j, vw. repeat (split; [assumption|]). destruct (j =? i) eqn:E; [|exact H]. apply Z.eqb_eq in E. subst j. destruct (U x HI).
Qed.

Lemma inv_init h w x t f : inv h w -> held f t ->
  inv (create h x f) (mkW (at_name (w_tab w) x (Some t)) (fun k => becomes x Lost (w_read w k))).
Proof.
  intros (I1 & I2 & I3 & I4) HF. unfold create. destruct (s_ino h x) as [i|] eqn:HI.
  - unfold inv, setData, at_name, updz. cbn [s_ino s_data s_next s_map w_tab w_read].
    split; [exact I1|]. split; [exact I2|]. split.
    + intros y. destruct (streq_dec y x) as [(-> & ->)|(N & ->)].
      * exists i. split; [exact HI|]. rewrite Z.eqb_refl. exact HF.
      * specialize (I3 y). destruct (w_tab w y) as [u|]; [|exact I3]. destruct I3 as (j & J & H). exists j. split; [exact J|].
        destruct (j =? i) eqn:E; [|exact H]. apply Z.eqb_eq in E. subst j. destruct N. exact (I2 _ _ _ J HI).
    + intros k. specialize (I4 k). destruct (w_read w k) as [|y|u|]; cbn [becomes]; auto.
      * destruct (streq_dec y x) as [(-> & E)|(N & E)]; rewrite E; [exact I|]. rewrite E. exact I4.
      * destruct I4 as (j & vw & M & V & LT & U & H). exists j, vw. repeat (split; [assumption|]). destruct (j =? i) eqn:E; [|exact H]. apply Z.eqb_eq in E. subst j. destruct (U x HI).
  - unfold inv, at_name, updz, upd1. cbn [s_ino s_data s_next s_map w_tab w_read]. split; [|split; [|split]].
    + intros y i. destruct (streq_dec y x) as [(-> & ->)|(N & ->)]; intros H; [injection H as <-; lia|]. apply I1 in H. lia.
    + intros y z i. destruct (streq_dec y x) as [(-> & ->)|(N & ->)]; destruct (streq_dec z x) as [(-> & ->)|(N' & ->)]; intros H1 H2; auto.
      * injection H1 as <-. apply I1 in H2. lia.
      * injection H2 as <-. apply I1 in H1. lia.
      * exact (I2 _ _ _ H1 H2).
    + intros y. destruct (streq_dec y x) as [(-> & ->)|(N & ->)].
      * exists (s_next h). split; [reflexivity|]. rewrite Z.eqb_refl. exact HF.
      * specialize (I3 y). destruct (w_tab w y) as [u|]; [|exact I3]. destruct I3 as (j & J & H). exists j. split; [exact J|].
        destruct (j =? s_next h) eqn:E; [|exact H]. apply I1 in J. lia.
    + intros k. specialize (I4 k). destruct (w_read w k) as [|y|u|]; cbn [becomes]; auto.
      * destruct (streq_dec y x) as [(-> & E)|(N & E)]; rewrite E; [exact I|]. rewrite E. exact I4.
      * destruct I4 as (j & vw & M & V & LT & U & H). exists j, vw. split; [exact M|]. split; [exact V|]. split; [lia|]. split.
        -- intros y. destruct (streq y x); [|apply U]. intros Q. injection Q as Q. lia.
        -- destruct (j =? s_next h) eqn:E; [|exact H]. lia.
Qed.

Definition forget (h : shmfs) (x : chars) : shmfs := mkFs (upd1 (s_ino h) x None) (s_data h) (s_next h) (s_map h).
Lemma inv_delete h w x t : inv h w -> w_tab w x = Some t ->
  inv (forget h x) (mkW (at_name (w_tab w) x None) (fun k => becomes x (Kept t) (w_read w k))).
Proof.
  intros (I1 & I2 & I3 & I4) HT. unfold inv, forget, at_name, upd1. cbn [s_ino s_data s_next s_map w_tab w_read]. split; [|split; [|split]].
  - intros y i. destruct (streq y x); [discriminate|]. apply I1.
  - intros y z i. destruct (streq y x); [discriminate|]. destruct (streq z x); [discriminate|]. apply I2.
  - intros y. destruct (streq_dec y x) as [(-> & ->)|(N & ->)]; [reflexivity|apply I3].
  - intros k. specialize (I4 k). destruct (w_read w k) as [|y|u|]; cbn [becomes]; auto.
    + destruct I4 as (u & j & vw & U & J & M & V). destruct (streq_dec y x) as [(-> & E)|(N & E)]; rewrite E.
      * pose proof (I3 x) as I3x. rewrite HT in I3x. destruct I3x as (i & HI & HH). assert (i = j) by congruence. subst i. assert (u = t) by congruence. subst u.
        exists j, vw. split; [exact M|]. split; [exact V|]. split; [exact (I1 _ _ J)|]. split; [|exact HH].
        intros y. destruct (streq_dec y x) as [(-> & ->)|(N & ->)]; [discriminate|]. intros Q. apply N. exact (I2 _ _ _ Q J).
      * exists u, j, vw. rewrite E. auto.
    + destruct I4 as (j & vw & M & V & LT & U & H). exists j, vw. repeat (split; [assumption|]). split; [|exact H]. intros y. destruct (streq y x); [discriminate|apply U].
Qed.
Lemma inv_delete_none h w x : inv h w -> w_tab w x = None -> inv (forget h x) w.
Proof.
  intros (I1 & I2 & I3 & I4) HT. unfold inv, forget, upd1. cbn [s_ino s_data s_next s_map]. split; [|split; [|split]].
  - intros y i. destruct (streq y x); [discriminate|]. apply I1.
  - intros y z i. destruct (streq y x); [discriminate|]. destruct (streq z x); [discriminate|]. apply I2.
  - intros y. destruct (streq_dec y x) as [(-> & ->)|(N & ->)]; [rewrite HT; reflexivity|apply I3].
  - intros k. specialize (I4 k). destruct (w_read w k) as [|y|u|]; auto.
    + destruct I4 as (u & j & vw & U & J & M & V). exists u, j, vw. split; [exact U|]. split; [|auto]. destruct (streq_dec y x) as [(-> & ->)|(N & ->)]; [congruence|exact J].
    + destruct I4 as (j & vw & M & V & LT & U & H). exists j, vw. repeat (split; [assumption|]). split; [|exact H]. intros y. destruct (streq y x); [discriminate|apply U].
Qed.

Lemma inv_map h w k x t i vw : inv h w -> w_tab w x = Some t -> s_ino h x = Some i -> viewed t vw ->
  inv (mkFs (s_ino h) (s_data h) (s_next h) (updz (s_map h) k (Some (i, vw)))) (mkW (w_tab w) (at_proc (w_read w) k (Live x))).
Proof.
  intros (I1 & I2 & I3 & I4) HT HI V. unfold inv, updz, at_proc. cbn [s_ino s_data s_next s_map w_tab w_read]. split; [auto|]. split; [auto|]. split; [auto|].
  intros j. destruct (j =? k) eqn:E; [|apply I4]. exists t, i, vw. auto.
Qed.
Lemma inv_unmap h w k : inv h w -> inv (mkFs (s_ino h) (s_data h) (s_next h) (updz (s_map h) k None)) (mkW (w_tab w) (at_proc (w_read w) k Nobody)).
Proof.
  intros (I1 & I2 & I3 & I4). unfold inv, updz, at_proc. cbn [s_ino s_data s_next s_map w_tab w_read]. split; [auto|]. split; [auto|]. split; [auto|].
  intros j. destruct (j =? k) eqn:E; [|apply I4]. reflexivity.
Qed.

Lemma num_int s x : is_num s x -> int32 x.
Proof. intros (H & _). exact H. Qed.
Lemma adjust_same m p : adjusted m p = adjust_text m p.
Proof. unfold adjusted, adjust_text. rewrite Z.eqb_sym. reflexivity. Qed.

Lemma run_on h w x shm c t : inv h w -> object shm x -> w_tab w x = Some t -> cmd_ints c ->
  exists i, openShm h shm = Some i /\
    (index_ok (d_n t) c -> exists h', runOn h i c = Ok (h', 0, []) /\ inv h' (mkW (at_name (w_tab w) x (Some (grown t c))) (w_read w))) /\
    (~ index_ok (d_n t) c -> runOn h i c = Ok (h, 1, [])).
Proof.
  intros IV O HT CI. pose proof (inv_open h w x shm IV O) as OP. rewrite HT in OP. destruct OP as (i & HI & OP & HF). exists i. split; [exact OP|].
  destruct (held_cmd _ _ c HF CI) as (A & B). unfold runOn. split.
  - intros OKI. destruct (A OKI) as (f & tr & -> & HF'). eexists. split; [reflexivity|]. eapply inv_cmd; eauto.
  - intros NO. rewrite (B NO). reflexivity.
Qed.

Lemma asks_cmd ws x c : asks ws (RCmd x c) -> cmd_ints c /\ exists shm, object shm x /\ forall e h,
  exec e h ws = match openShm h shm with None => Ok (h, 1, []) | Some i => runOn h i c end.
Proof.
  intros A. inversion A as [|its tail x' fws (F & shm & V & O) NI N|its tail x' i w fw (F & shm & V & O) (t & VT & NT) RW N|its tail x' fws (F & shm & V & O) NI N|its tail x' i (F & shm & V & O) (t & VT & NT)| |]; subst.
  - destruct (atois _ _ N) as (AT & IN). split; [exact IN|]. exists shm. split; [exact O|]. intros e h. destruct (config_line its tail shm None F V NI) as (v0 & P).
    cbn [exec]. change (streq (str "activate") (str "init")) with false. change (streq (str "activate") (str "delete")) with false. rewrite streq_refl. cbn match.
    unfold lineActivate, withOptions. rewrite P. cbn [obind]. rewrite AT. reflexivity.
  - split; [split; [exact (num_int _ _ NT)|exact (num_int _ _ N)]|]. exists shm. split; [exact O|]. intros e h. destruct (config_line its tail shm (Some t) F V VT) as (v0 & P).
    cbn [exec]. change (streq (str "activate") (str "init")) with false. change (streq (str "activate") (str "delete")) with false. rewrite streq_refl. cbn match.
    unfold lineActivate, withOptions. rewrite P, RW. cbn [obind]. rewrite (atoi_num _ _ NT), (atoi_num _ _ N). reflexivity.
  - destruct (atois _ _ N) as (AT & IN). split; [exact IN|]. exists shm. split; [exact O|]. intros e h. destruct (config_line its tail shm None F V NI) as (v0 & P).
    cbn [exec]. change (streq (str "deactivate") (str "init")) with false. change (streq (str "deactivate") (str "delete")) with false.
    change (streq (str "deactivate") (str "activate")) with false. rewrite streq_refl. cbn match.
    unfold lineDeactivate, withOptions. rewrite P. cbn [obind]. rewrite AT. reflexivity.
  - split; [exact (num_int _ _ NT)|]. exists shm. split; [exact O|]. intros e h. destruct (config_line its tail shm (Some t) F V VT) as (v0 & P).
    cbn [exec]. change (streq (str "deactivate") (str "init")) with false. change (streq (str "deactivate") (str "delete")) with false.
    change (streq (str "deactivate") (str "activate")) with false. rewrite streq_refl. cbn match.
    unfold lineDeactivate, withOptions. rewrite P. cbn [obind]. rewrite (atoi_num _ _ NT). reflexivity.
Qed.
Lemma asks_init ws x own m n : asks ws (RInit x own m n) -> int32 own /\ 0 <= m < 2 ^ 31 /\ 0 <= n < 2 ^ 31 /\ forall e h,
  exec e h ws = (do p <- (if m <? 3 then Ok 3 else primeBelow m);
    if n >? p then Ok (h, 1, adjusted m p)
    else do q <- initShm own p n (ie_garbage e) (ie_writes e) (ie_rand e); let '(f, good) := q in Ok (create h x f, if good : bool then 0 else 1, adjusted m p)).
Proof.
  intros A. inversion A as [its tail x' own' m' n' (F & shm & V & O) (so & VO & NO) (sm & VM & NM) (sn & VN & NN) M0 N0| | | | | |]; subst.
  pose proof (num_int _ _ NO) as B1. pose proof (num_int _ _ NM) as B2. pose proof (num_int _ _ NN) as B3. unfold int32 in B2, B3.
  split; [exact B1|]. split; [lia|]. split; [lia|]. intros e h. destruct (init_line its tail shm _ _ _ F V VO VN VM) as (v0 & P).
  cbn [exec]. rewrite streq_refl. unfold lineInit, withOptions. rewrite P. cbn [obind].
  rewrite (atoi_num _ _ NO), (atoi_num _ _ NM), (atoi_num _ _ NN), (u32_num m), (u32_num n) by lia. rewrite (proj2 (name_object shm x) O). reflexivity.
Qed.
Lemma asks_delete ws x : asks ws (RDelete x) -> forall e h, exec e h ws = Ok (forget h x, 0, []).
Proof.
  intros A. inversion A as [| | | | |its tail x' (F & shm & V & O)|]; subst. intros e h. destruct (delete_line its tail shm F V) as (v0 & P).
  cbn [exec]. change (streq (str "delete") (str "init")) with false. rewrite streq_refl. cbn match. unfold lineDelete, withOptions. rewrite P. cbn [obind]. rewrite (proj2 (name_object shm x) O). reflexivity.
Qed.
Lemma asks_show ws shm x : asks ws (RShow shm x) -> object shm x /\ forall e h, exec e h ws =
  match openShm h shm with None => Ok (h, 1, []) | Some i => do t <- cmdShow shm (s_data h i); Ok (h, 0, t) end.
Proof.
  intros A. inversion A as [| | | | | |its tail shm' x' F V O]; subst. split; [exact O|]. intros e h. destruct (show_line its tail shm F V) as (v0 & P).
  cbn [exec]. change (streq (str "show") (str "init")) with false. change (streq (str "show") (str "delete")) with false. change (streq (str "show") (str "activate")) with false.
  change (streq (str "show") (str "deactivate")) with false. rewrite streq_refl. cbn match. unfold lineShow, withOptions. rewrite P. reflexivity.
Qed.

Lemma one_event h w a v w' o : inv h w -> is_event a v -> happens w v w' o -> exists h', hdo h a = Ok (h', o) /\ inv h' w'.
Proof.
  intros IV EV H. destruct H; destruct a as [e0 ws|k0 shm0|k0 h0]; cbn in EV; try contradiction.
  - destruct EV as (-> & A). destruct (asks_init _ _ _ _ _ A) as (B1 & B2 & B3 & EX). cbn [hdo]. rewrite EX.
    destruct (held_init e own m n p B2 B3 B1 H H0 H1) as (f & IN & HF). rewrite (size_prime m p ltac:(lia) H ltac:(apply H1)). cbn [obind].
    destruct (n >? p) eqn:E; [lia|]. rewrite IN. cbn [obind]. rewrite adjust_same. eexists. split; [reflexivity|]. apply inv_init; auto.
  - destruct EV as (-> & A). destruct (asks_init _ _ _ _ _ A) as (B1 & B2 & B3 & EX). cbn [hdo]. rewrite EX. rewrite (size_prime m p ltac:(lia) H H1). cbn [obind].
    destruct (n >? p) eqn:E; [|lia]. cbn [obind]. rewrite adjust_same. exists h. auto.
  - destruct EV as (-> & A). destruct (asks_cmd _ _ _ A) as (CI & shm & O & EX). cbn [hdo]. rewrite EX. destruct (run_on h w x shm c t IV O H CI) as (i & -> & R & _).
    destruct (R H0) as (h' & -> & IV'). exists h'. split; [reflexivity|exact IV'].
  - destruct EV as (-> & A). destruct (asks_cmd _ _ _ A) as (CI & shm & O & EX). cbn [hdo]. rewrite EX. destruct (run_on h w x shm c t IV O H CI) as (i & -> & _ & R).
    rewrite (R H0). exists h. auto.
  - destruct EV as (-> & A). destruct (asks_cmd _ _ _ A) as (CI & shm & O & EX). cbn [hdo]. rewrite EX. pose proof (inv_open h w x shm IV O) as OP. rewrite H in OP. rewrite OP. exists h. auto.
  - destruct EV as (-> & A). cbn [hdo]. rewrite (asks_delete _ _ A). exists (forget h x). split; [reflexivity|]. apply inv_delete; auto.
  - destruct EV as (-> & A). cbn [hdo]. rewrite (asks_delete _ _ A). exists (forget h x). split; [reflexivity|]. apply inv_delete_none; auto.
  - destruct EV as (-> & A). destruct (asks_show _ _ _ A) as (O & EX). cbn [hdo]. rewrite EX. pose proof (inv_open h w x shm IV O) as OP. rewrite H in OP. destruct OP as (i & HI & -> & HF).
    rewrite (held_show _ t s HF H0). exists h. auto.
  - destruct EV as (-> & A). destruct (asks_show _ _ _ A) as (O & EX). cbn [hdo]. rewrite EX. pose proof (inv_open h w x shm IV O) as OP. rewrite H in OP. rewrite OP. exists h. auto.
  - destruct EV as (-> & O). cbn [hdo]. unfold mapTable. pose proof (inv_open h w x shm0 IV O) as OP. rewrite H in OP. destruct OP as (i & HI & -> & HF).
    destruct (held_view _ _ HF) as (vw & -> & VW). cbn [obind fst snd]. eexists. split; [reflexivity|]. eapply inv_map; eauto.
  - destruct EV as (-> & O). cbn [hdo]. unfold mapTable. pose proof (inv_open h w x shm0 IV O) as OP. rewrite H in OP. rewrite OP. cbn [obind fst snd].
    eexists. split; [reflexivity|]. apply inv_unmap. exact IV.
  - destruct EV as (-> & ->). cbn [hdo]. pose proof IV as (_ & _ & I3 & I4). specialize (I4 k). rewrite H in I4. destruct I4 as (u & i & vw & U & J & M & V). rewrite M.
    assert (u = t) by congruence. subst u. specialize (I3 x). rewrite H0 in I3. destruct I3 as (i' & J' & HF). assert (i' = i) by congruence. subst i'.
    rewrite (held_look _ t s vw hash v HF H1 V H3). exists h. auto.
  - destruct EV as (-> & ->). cbn [hdo]. pose proof IV as (_ & _ & _ & I4). specialize (I4 k). rewrite H in I4. destruct I4 as (i & vw & M & V & _ & _ & HF). rewrite M.
    rewrite (held_look _ t s vw hash v HF H0 V H2). exists h. auto.
  - destruct EV as (-> & ->). cbn [hdo]. pose proof IV as (_ & _ & _ & I4). specialize (I4 k). rewrite H in I4. rewrite I4. exists h. auto.
Qed.

Lemma events h w vs ws w' os : inv h w -> Forall2 is_event vs ws -> happen w ws w' os -> exists h', hdos h vs = Ok (h', os) /\ inv h' w'.
Proof.
  intros IV F H. revert h vs IV F. induction H as [w|w v w1 o ws w2 os H1 H2 IH]; intros h vs IV F; inversion F; subst; [exists h; auto|].
  destruct (one_event _ _ _ _ _ _ IV H4 H1) as (h1 & E1 & IV1). destruct (IH h1 _ IV1 H5) as (h2 & E2 & IV2).
  exists h2. split; [|exact IV2]. cbn [hdos]. rewrite E1. cbn [obind fst snd]. rewrite E2. reflexivity.
Qed.
Lemma inv_start : inv emptyFs start.
Proof. unfold inv, emptyFs, start. cbn. repeat split; auto; discriminate. Qed.
Lemma table_lines vs ws w os : Forall2 is_event vs ws -> happen start ws w os -> exists h, hdos emptyFs vs = Ok (h, os).
Proof. intros F H. destruct (events _ _ _ _ _ _ inv_start F H) as (h & E & _). eauto. Qed.

(** What should happen is defined for all sound events. *)
Definition told (w : world) : Prop := exists h, inv h w.
Lemma index_dec n c : {index_ok n c} + {~ index_ok n c}.
Proof. destruct c; cbn; auto; destruct (Z_le_dec 0 i), (Z_lt_dec i n); auto; right; lia. Qed.
Lemma step_exists w v a : told w -> is_event a v -> sound w v -> exists w' o, happens w v w' o /\ told w'.
Proof.
  intros (h & IV) EV SO. assert (G : exists w' o, happens w v w' o).
  { destruct v as [e r|k x|k hash].
    - destruct r as [x own m n|x c|x|shm x].
      + destruct SO as (p & SZ & PB & FT). destruct (Z_le_dec n p) as [L|L]; eexists; eexists; [eapply h_init; eauto|eapply h_init_no; eauto; lia].
      + destruct (w_tab w x) as [t|] eqn:T; [destruct (index_dec (d_n t) c)|]; eexists; eexists; [eapply h_cmd; eauto|eapply h_cmd_index; eauto|eapply h_cmd_none; eauto].
      + destruct (w_tab w x) as [t|] eqn:T; eexists; eexists; [eapply h_delete; eauto|eapply h_delete_none; eauto].
      + destruct (w_tab w x) as [t|] eqn:T.
        * pose proof IV as (_ & _ & I3 & _). specialize (I3 x). rewrite T in I3. destruct I3 as (i & _ & HF). destruct (held_target _ _ 0 HF ltac:(lia)) as (s & y & TS & _).
          eexists; eexists; eapply h_show; eauto.
        * eexists; eexists; eapply h_show_none; eauto.
    - destruct (w_tab w x) as [t|] eqn:T; eexists; eexists; [eapply h_map; eauto|eapply h_map_none; eauto].
    - destruct SO as (HH & NL). pose proof IV as (_ & _ & I3 & I4). specialize (I4 k). destruct (w_read w k) as [|x|t|] eqn:R.
      + eexists; eexists; eapply h_look_none; eauto.
      + destruct I4 as (t & i & vw & T & J & _). specialize (I3 x). rewrite T in I3. destruct I3 as (i' & _ & HF). destruct (held_target _ _ hash HF HH) as (s & y & TS & TG).
        eexists; eexists; eapply h_look; eauto.
      + destruct I4 as (i & vw & _ & _ & _ & _ & HF). destruct (held_target _ _ hash HF HH) as (s & y & TS & TG). eexists; eexists; eapply h_look_kept; eauto.
      + contradiction. }
  destruct G as (w' & o & H). exists w', o. split; [exact H|]. destruct (one_event _ _ _ _ _ _ IV EV H) as (h' & _ & IV'). exists h'. exact IV'.
Qed.
(** The next event after any history has an answer. *)
Lemma next_answer vs ws w os a v : Forall2 is_event vs ws -> happen start ws w os -> is_event a v -> sound w v -> exists w' o, happens w v w' o.
Proof.
  intros F H EV SO. destruct (events _ _ _ _ _ _ inv_start F H) as (h & _ & IV). destruct (step_exists w v a (ex_intro _ h IV) EV SO) as (w' & o & HP & _). eauto.
Qed.
