(** Proofs about the fragment table: every step of every thread keeps the invariant. *)
From Coq Require Import Permutation.
From Verif Require Import Base Lists IpKey_Model Conntrack_Model Conntrack_Spec Conntrack_Proofs Conntrack2_Proofs
  Frag_Model Frag_Spec Frag_Proofs.

Lemma Inv_next : forall g tr s ps D, Inv g tr s ps D -> Inv g tr (set_next s (s_next s + 1)) ps D.
Proof.
  intros g tr s ps D I. destruct I. constructor; auto; cbn.
  - lia.
  - intros o b H. specialize (v_ids _ _ H). lia.
  - rewrite Forall_forall in *. intros p Hp. eapply pc_ok_mono; [apply v_pcs; assumption|cbn; lia|auto|]. cbn. eauto.
  - intros f Hf. specialize (v_fidn f Hf). lia.
Qed.

Lemma Inv_ob : forall g tr s ps D ob, Inv g tr s ps D -> stored_tr ob = [] -> handed_tr ob = [] -> discarded_tr ob = [] ->
  (forall k v, In (Returned k 0 (Some v)) ob -> In (Accepted k v) tr) -> Inv g (tr ++ ob) s ps D.
Proof.
  intros g tr s ps D ob I H1 H2 H3 H4. destruct I. constructor; auto.
  - intros o b Hb. eapply good_mono; [eauto|]. intros; apply in_or_app; auto.
  - rewrite Forall_forall in *. intros p Hp. eapply pc_ok_mono; [apply v_pcs; assumption|lia|intros; apply in_or_app; auto|]. eauto.
  - rewrite stored_tr_app, handed_tr_app, discarded_tr_app, H1, H2, H3, !app_nil_r. assumption.
  - rewrite discarded_tr_app, H3, app_nil_r. assumption.
  - rewrite stored_tr_app, H1, app_nil_r. assumption.
  - rewrite stored_tr_app, H1, app_nil_r. assumption.
  - apply justified_app; assumption.
Qed.

Lemma Inv_ret : forall g tr s ps D c r v, Inv g tr s ps D -> val_ok tr c r v \/ v = None -> Inv g (tr ++ ret c r v) s ps D.
Proof.
  intros g tr s ps D c r v I H. apply Inv_ob; try reflexivity; [assumption|].
  intros k x [E|[]]. injection E as <- -> ->. destruct H as [H|H]; [exact H|discriminate].
Qed.

Lemma Inv_ret' : forall g tr ob s ps D c r v, Inv g (tr ++ ob) s ps D -> val_ok tr c r v \/ v = None -> Inv g (tr ++ ob ++ ret c r v) s ps D.
Proof.
  intros g tr ob s ps D c r v I H. rewrite app_assoc. apply Inv_ret; [assumption|]. destruct H as [H|H]; [left|auto].
  unfold val_ok in *. destruct v; [apply in_or_app; auto|assumption].
Qed.

Lemma perm_mid3 : forall A (x y z : list A), Permutation (x ++ y ++ z) (y ++ x ++ z).
Proof. intros. rewrite !app_assoc. apply Permutation_app_tail. apply Permutation_app_comm. Qed.

Lemma cons_shuffle : forall A (S B T B' T' W P R : list A), Permutation (S ++ B ++ T) (B' ++ T') ->
  Permutation (((B ++ W) ++ (T ++ P) ++ R) ++ S) ((B' ++ W) ++ (T' ++ P) ++ R).
Proof.
  intros A S B T B' T' W P R H.
  assert (E1 : Permutation (((B ++ W) ++ (T ++ P) ++ R) ++ S) ((S ++ B ++ T) ++ W ++ P ++ R)).
  { rewrite (Permutation_app_comm _ S). rewrite <- !app_assoc. do 2 apply Permutation_app_head. apply perm_mid3. }
  assert (E2 : Permutation ((B' ++ T') ++ W ++ P ++ R) ((B' ++ W) ++ (T' ++ P) ++ R)).
  { rewrite <- !app_assoc. apply Permutation_app_head. apply perm_mid3. }
  rewrite E1, H. exact E2.
Qed.

(** A change of one object by its holder. *)
Lemma Inv_obj : forall g tr s p ps o b b' p' ob, Inv g tr s (p :: ps) [] -> oget (s_objs s) o = Some b ->
  o_ref b' = o_ref b -> o_key b' = o_key b -> (o_val b <> None -> o_val b' <> None) -> good (tr ++ ob) b' ->
  held p' = held p -> pc_ok (tr ++ ob) (set_obj s o b') p' ->
  handed_tr ob = [] -> discarded_tr ob = [] -> (forall k v, ~ In (Returned k 0 (Some v)) ob) ->
  Permutation (stored_tr ob ++ wt (o, b) ++ taken p) (wt (o, b') ++ taken p') ->
  Permutation (map snd (stored_tr ob) ++ hand p') (hand p) ->
  Inv g (tr ++ ob) (set_obj s o b') (p' :: ps) [].
Proof.
  intros g tr s p ps o b b' p' ob I Hb Hr Hk Hv Hg Hh Hp H1 H2 H3 PT PH.
  assert (Hx : forall o', oget (oset (s_objs s) o b') o' = if o =? o' then Some b' else oget (s_objs s) o') by (intro; apply oget_oset; eauto).
  set (W := flat_map wt (odel (s_objs s) o)).
  assert (PW : Permutation (waiting s) (wt (o, b) ++ W)).
  { unfold waiting. change (fun x : Z * obj => tag (o_key (snd x)) (o_stored (snd x))) with wt. apply waiting_del. assumption. }
  assert (PW' : Permutation (waiting (set_obj s o b')) (wt (o, b') ++ W)).
  { unfold waiting. cbn [set_obj set_objs s_objs]. change (fun x : Z * obj => tag (o_key (snd x)) (o_stored (snd x))) with wt. eapply waiting_set; eauto. }
  destruct I. constructor; auto.
  - cbn. rewrite oset_fst. assumption.
  - cbn. intros o' b1. rewrite Hx. destruct (o =? o') eqn:E; [|eauto]. intro. assert (o = o') by lia. subst o'. eauto.
  - intro o'. cbn [set_obj set_objs s_objs s_ct flat_map]. rewrite Hh. specialize (v_ref o'). cbn [flat_map] in v_ref.
    unfold rc in *. rewrite Hx. destruct (o =? o') eqn:E; [|lia]. assert (o = o') by lia. subst o'. rewrite Hb in v_ref. lia.
  - cbn. intros o' b1. rewrite Hx. destruct (o =? o') eqn:E; [|eauto]. intro Hy. injection Hy as <-. rewrite Hr. eauto.
  - cbn. intros o' b1. rewrite Hx. destruct (o =? o') eqn:E.
    + intro Hy. injection Hy as <-. assumption.
    + intro Hy. eapply good_mono; [eauto|]. intros; apply in_or_app; auto.
  - cbn. intros c b1 Hc. rewrite Hx. destruct (o =? c_data c) eqn:E; [|eauto]. intro Hy. injection Hy as <-. rewrite Hk.
    apply v_entry; [assumption|]. replace (c_data c) with o by lia. assumption.
  - apply Forall_cons; [assumption|]. apply Forall_cons_iff in v_pcs. destruct v_pcs as [_ v_pcs]. rewrite Forall_forall in *. intros q Hq.
    eapply pc_ok_mono; [apply v_pcs; assumption|cbn; lia|intros; apply in_or_app; auto|].
    cbn. intros o' b1 _. rewrite Hx. destruct (o =? o') eqn:E; [|eauto]. intro Hy. injection Hy as <-. assert (o = o') by lia. subst o'. eauto.
  - rewrite (zlen_perm _ _ _ PW'). rewrite (zlen_perm _ _ _ PW) in v_fr. cbn [flat_map] in *. rewrite !zlen_app in *.
    apply zlen_perm in PT. apply zlen_perm in PH. rewrite !zlen_app in PT. rewrite zlen_app, zlen_map in PH.
    cbn [set_obj set_objs s_frfree]. lia.
  - cbn [set_obj set_objs s_objs]. rewrite oset_length. assumption.
  - rewrite stored_tr_app, handed_tr_app, discarded_tr_app, H1, H2, !app_nil_r. rewrite v_cons, PW, PW'. cbn [flat_map].
    apply cons_shuffle. assumption.
  - rewrite discarded_tr_app, H2, app_nil_r. assumption.
  - rewrite stored_tr_app, (map_app snd), <- app_assoc. cbn [flat_map] in *. eapply Permutation_NoDup; [|eassumption].
    apply Permutation_map. apply Permutation_app_head. rewrite app_assoc. apply Permutation_app_tail. symmetry. assumption.
  - rewrite stored_tr_app, (map_app snd), <- app_assoc. cbn [flat_map] in *. intros f Hf. apply v_fidn. eapply Permutation_in; [|eassumption].
    apply Permutation_app_head. rewrite app_assoc. apply Permutation_app_tail. assumption.
  - apply justified_app; [assumption|]. intros k v Hi. exfalso. eapply H3; eauto.
Qed.

(** Fragments leave a thread: handed back or discarded. *)
Lemma Inv_leave : forall g tr s p ps ob l n s', Inv g tr s (p :: ps) [] -> held p = [] -> hand p = [] -> taken p = l ->
  s' = mkSys (s_ct s) (s_objs s) (s_next s) (s_fdfree s) (s_bkfree s) (s_frfree s + zlen l) (u32 (s_discarded s + n)) (s_reassembled s) ->
  n = zlen (discarded_tr ob) -> stored_tr ob = [] -> Permutation l (handed_tr ob ++ discarded_tr ob) ->
  (forall k v, ~ In (Returned k 0 (Some v)) ob) ->
  Inv g (tr ++ ob) s' (Idle :: ps) [].
Proof.
  intros g tr s p ps ob l n s' I H1 H2 H3 Hs Hn H4 PL H5. subst s' n. destruct I. constructor; auto.
  - intro o. specialize (v_ref o). cbn [flat_map] in *. rewrite H1 in v_ref. cbn [s_objs s_ct held holds]. assumption.
  - cbn. intros o b Hb. eapply good_mono; [eauto|]. intros; apply in_or_app; auto.
  - apply Forall_cons; [exact I|]. apply Forall_cons_iff in v_pcs. destruct v_pcs as [_ v_pcs]. rewrite Forall_forall in *. intros q Hq.
    eapply pc_ok_mono; [apply v_pcs; assumption|cbn; lia|intros; apply in_or_app; auto|]. cbn. eauto.
  - cbn [s_frfree]. pose proof (zlen_nonneg _ l). lia.
  - cbn [s_frfree flat_map taken hand app]. change (waiting (mkSys (s_ct s) (s_objs s) (s_next s) (s_fdfree s) (s_bkfree s) (s_frfree s + zlen l) (u32 (s_discarded s + zlen (discarded_tr ob))) (s_reassembled s))) with (waiting s).
    cbn [flat_map] in v_fr. rewrite H2, H3 in v_fr. rewrite !zlen_app in v_fr. cbn [app]. change (zlen (@nil frag)) with 0 in v_fr. lia.
  - rewrite stored_tr_app, handed_tr_app, discarded_tr_app, H4, app_nil_r, v_cons. cbn [flat_map taken app]. rewrite H3.
    change (waiting (mkSys (s_ct s) (s_objs s) (s_next s) (s_fdfree s) (s_bkfree s) (s_frfree s + zlen l) (u32 (s_discarded s + zlen (discarded_tr ob))) (s_reassembled s))) with (waiting s).
    apply Permutation_app_head. rewrite PL. rewrite <- !app_assoc.
    transitivity ((handed_tr ob ++ discarded_tr ob) ++ flat_map taken ps ++ handed_tr tr ++ discarded_tr tr); [rewrite <- !app_assoc; reflexivity|].
    rewrite (Permutation_app_comm (handed_tr ob ++ discarded_tr ob)). rewrite <- !app_assoc. apply Permutation_app_head. apply Permutation_app_head.
    apply perm_mid3.
  - cbn [s_discarded]. rewrite discarded_tr_app, zlen_app, v_disc. apply u32_add_u32.
  - rewrite stored_tr_app, H4, app_nil_r. cbn [flat_map] in *. rewrite H2 in v_fid. assumption.
  - rewrite stored_tr_app, H4, app_nil_r. cbn [flat_map] in *. rewrite H2 in v_fidn. assumption.
  - apply justified_app; [assumption|]. intros k v Hi. exfalso. eapply H5; eauto.
Qed.

(** The holder of an object finds it. *)
Lemma held_alive : forall g tr s p ps D o, Inv g tr s (p :: ps) D -> holds p = Some o -> exists b, oget (s_objs s) o = Some b.
Proof.
  intros g tr s p ps D o I H. pose proof (v_ref _ _ _ _ _ I o) as R. cbn [flat_map] in R. unfold held at 1 in R. rewrite H in R.
  rewrite !cnt_app, cnt_cons, Z.eqb_refl in R.
  pose proof (cnt_nonneg (stored_data (s_ct s)) o). pose proof (cnt_nonneg (flat_map held ps) o). pose proof (cnt_nonneg D o). pose proof (cnt_nonneg [] o).
  unfold rc in R. destruct (oget (s_objs s) o); [eauto|lia].
Qed.

(** A holder releases its object and goes on. *)
Lemma release_ok : forall g tr s p ps o p', Inv g tr s (p :: ps) [] -> Bk g s -> holds p = Some o -> holds p' = None ->
  pc_ok tr s p' -> taken p' = taken p -> hand p' = hand p ->
  exists s' ob, fragDataUnlock s o = Ok (s', ob) /\ Inv g (tr ++ ob) s' (p' :: ps) [] /\ Bk g s'.
Proof.
  intros g tr s p ps o p' I B H H' Hp Ht Hh.
  assert (I1 : Inv g tr s (p' :: ps) [o]).
  { eapply Inv_swap; eauto. unfold held. rewrite H, H'. reflexivity. }
  destruct (unlock_ok _ _ _ _ _ _ I1) as [s' [ob [E [I2 [[R1 [R2 R3]] _]]]]]. exists s', ob. split; [assumption|]. split; [assumption|].
  destruct B as [B1 B2]. split; rewrite ?R1, ?R3; assumption.
Qed.

Lemma insert_op_ok : forall g tr s c o ps a, conf_ok g -> Inv g tr s (PIns c o :: ps) [] -> Bk g s ->
  exists s' r ob, insert_op g s (c_now c) (c_k c) o a = Ok (s', r, ob) /\ Bk g s' /\
    Inv g (tr ++ ob) s' ((if r =? 0 then PInc c o else if r =? 1 then PLost c o else PFull c o) :: ps) [].
Proof.
  intros g tr s c o ps a G I B. unfold insert_op.
  destruct (held_alive _ _ _ _ _ _ o I eq_refl) as [b Hb]. pose proof (v_ids _ _ _ _ _ I _ _ Hb) as Ho.
  destruct (cstep_total (s_ct s) (OInsert (c_now c) (c_k c) (g_ttl g) o (Some (s_next s)))) as [t0 [v0 [ev0 E0]]];
    [rewrite (v_len _ _ _ _ _ I); destruct G; lia|]. cbn [cstep] in E0. rewrite E0. cbn [obind].
  set (avail := negb a && (0 <? s_bkfree s + zlen (freed_buckets ev0))).
  set (al := if avail then Some (s_next s) else None). set (op := OInsert (c_now c) (c_k c) (g_ttl g) o al).
  pose proof (Inv_next _ _ _ _ _ I) as In1. set (s1 := set_next s (s_next s + 1)) in *.
  unfold table_op. destruct (cstep_total (s_ct s1) op) as [t [v [ev E]]]; [cbn; rewrite (v_len _ _ _ _ _ I); destruct G; lia|].
  rewrite E. cbn [obind]. destruct (step_conserves _ _ _ _ _ (v_wf _ _ _ _ _ In1) E) as [W [P1 P2]].
  assert (Pc : pc_ok tr s1 (PIns c o)) by (pose proof (v_pcs _ _ _ _ _ In1) as F; apply Forall_cons_iff in F; tauto).
  set (p' := if v =? 0 then PInc c o else if v =? 1 then PLost c o else PFull c o).
  assert (Hp' : pc_ok tr s1 p' /\ taken p' = [] /\ hand p' = [] /\ held p' = if v =? 0 then [] else [o]).
  { subst p'. destruct (v =? 0); [|destruct (v =? 1)]; cbn in *; auto. }
  destruct Hp' as [Hp1 [Hp2 [Hp3 Hp4]]].
  assert (I1 : Inv g tr (set_ct s1 t) (p' :: ps) (freed_data ev ++ [])).
  { apply (Inv_ct _ _ _ (PIns c o :: ps) []); auto; [eapply op_len; eauto| | | | |].
    - cbn [flat_map]. rewrite Hp4. unfold held at 1. cbn [holds]. rewrite !app_nil_r. unfold ins1, op in P1. cbn [inserted] in P1.
      destruct (v =? 0).
      + cbn [app]. transitivity ((stored_data (s_ct s1) ++ [o]) ++ flat_map held ps); [rewrite <- app_assoc; reflexivity|].
        rewrite P1, <- app_assoc. apply Permutation_app_head, Permutation_app_comm.
      + rewrite app_nil_r in P1. rewrite P1, <- app_assoc. apply Permutation_app_head. rewrite Permutation_app_comm. reflexivity.
    - cbn [flat_map]. rewrite Hp2. reflexivity.
    - cbn [flat_map]. rewrite Hp3. reflexivity.
    - intros c1 b1 Hc Hb1. destruct (step_tab _ _ _ _ _ _ (v_wf _ _ _ _ _ In1) E Hc) as [[c0 [H1 [H2 H3]]]|[n [ttl [al' [H1 _]]]]].
      + rewrite <- H2. apply (v_entry _ _ _ _ _ In1); [assumption|]. rewrite H3. assumption.
      + unfold op in H1. assert (Ek : c_k c = c_key c1 /\ o = c_data c1) by (split; congruence). destruct Ek as [Ek1 Ek2].
        cbn in Pc. destruct Pc as [[_ Pc] _]. rewrite <- Ek1. apply Pc. rewrite Ek2. assumption.
    - apply Forall_cons; [assumption|]. pose proof (v_pcs _ _ _ _ _ In1) as F. apply Forall_cons_iff in F. tauto. }
  destruct (callbacks_ok _ _ _ _ _ _ I1) as [s' [ob [E2 [I2 [C1 [C2 C3]]]]]]. rewrite E2. cbn [obind].
  exists s', v, ob. split; [reflexivity|]. split; [|exact I2].
  destruct B as [B1 B2]. cbn [set_ct s_ct s_bkfree] in *. unfold op in E. cbn [cstep] in E.
  destruct (allocated_insert _ _ _ _ _ _ _ _ _ E (v_wf _ _ _ _ _ In1)) as [HA HF].
  specialize (HF _ _ E0). cbn [snd] in HF. apply zlen_perm in P2. rewrite !zlen_app in P2. change (s_ct s1) with (s_ct s) in *. change (s_bkfree s1) with (s_bkfree s) in *.
  pose proof (zlen_nonneg _ (freed_buckets ev)). split; [|rewrite C1; lia].
  destruct HA as [HA|[m [HA1 HA2]]]; [rewrite HA in C3; change (zlen (@nil Z)) with 0 in C3; lia|].
  rewrite HA2 in C3. change (zlen [m]) with 1 in C3. unfold al in HA1. destruct avail eqn:Ea; [|discriminate].
  unfold avail in Ea. apply andb_true_iff in Ea. rewrite HF in Ea. lia.
Qed.

(** ** Steps of a thread *)
Definition step_good (g : conf) (tr : list obs) (ps : list pc) (r : outcome (sys * pc * list obs)) : Prop :=
  exists s' p' ob, r = Ok (s', p', ob) /\ Inv g (tr ++ ob) s' (p' :: ps) [] /\ Bk g s'.

Lemma stay : forall g tr s p ps p', Inv g tr s (p :: ps) [] -> Bk g s -> pc_ok tr s p' -> held p' = held p ->
  taken p' = taken p -> hand p' = hand p -> step_good g tr ps (Ok (s, p', [])).
Proof.
  intros g tr s p ps p' I B Hp Hh Ht Hd. exists s, p', []. split; [reflexivity|]. rewrite app_nil_r. split; [|assumption].
  eapply Inv_swap; eauto. rewrite Hh. reflexivity.
Qed.

Lemma Inv_reas : forall g tr s ps D, Inv g tr s ps D -> Inv g tr (inc_reas s) ps D.
Proof. intros g tr s ps D I. destruct I. constructor; auto. Qed.

Lemma head_ok : forall g tr s p ps D, Inv g tr s (p :: ps) D -> pc_ok tr s p.
Proof. intros g tr s p ps D I. pose proof (v_pcs _ _ _ _ _ I) as F. apply Forall_cons_iff in F. tauto. Qed.

(** Release and return. *)
Lemma unl_step : forall g tr s p ps c o r v, Inv g tr s (p :: ps) [] -> Bk g s -> holds p = Some o -> taken p = [] -> hand p = [] ->
  val_ok tr c r v \/ v = None ->
  step_good g tr ps (do x <- fragDataUnlock s o; let '(s1, ob) := x in Ok (s1, Idle, ob ++ ret c r v)).
Proof.
  intros g tr s p ps c o r v I B Hh Ht Hd Hv.
  destruct (release_ok g tr s p ps o Idle I B Hh eq_refl) as [s' [ob [E [I2 B2]]]]; [exact Logic.I|symmetry; assumption|symmetry; assumption|].
  rewrite E. cbn [obind]. exists s', Idle, (ob ++ ret c r v). split; [reflexivity|]. split; [|assumption]. apply Inv_ret'; assumption.
Qed.

Lemma rel_step : forall g tr s p ps o p', Inv g tr s (p :: ps) [] -> Bk g s -> holds p = Some o -> holds p' = None ->
  pc_ok tr s p' -> taken p' = taken p -> hand p' = hand p ->
  step_good g tr ps (do x <- fragDataUnlock s o; let '(s1, ob) := x in Ok (s1, p', ob)).
Proof.
  intros g tr s p ps o p' I B Hh Hh' Hp Ht Hd.
  destruct (release_ok g tr s p ps o p' I B Hh Hh' Hp Ht Hd) as [s' [ob [E [I2 B2]]]].
  rewrite E. cbn [obind]. exists s', p', ob. auto.
Qed.

Lemma look_step : forall g tr s p ps c (miss : sys -> list obs -> outcome (sys * pc * list obs)), conf_ok g ->
  Inv g tr s (p :: ps) [] -> Bk g s -> held p = [] -> taken p = [] -> hand p = [] ->
  (forall s1 ob, Inv g (tr ++ ob) s1 (p :: ps) [] -> Bk g s1 -> step_good g tr ps (miss s1 ob)) ->
  step_good g tr ps (do x <- lookup_op s (c_now c) (c_k c); let '(s1, o, ob) := x in if o =? 0 then miss s1 ob else Ok (s1, PBody c o, ob)).
Proof.
  intros g tr s p ps c miss G I B H1 H2 H3 Hm.
  destruct (lookup_op_ok g tr s p ps (c_now c) (c_k c) G I B H1) as [s' [o [ob [E [B' [[-> I']|[Ho [I' [Hn Hk]]]]]]]]]; rewrite E; cbn [obind].
  - cbn. apply Hm; assumption.
  - destruct (o =? 0) eqn:Eo; [lia|]. exists s', (PBody c o), ob. split; [reflexivity|]. split; [|assumption].
    eapply Inv_swap; [exact I'|cbn; split; assumption| |symmetry; assumption|symmetry; assumption].
    rewrite H1. reflexivity.
Qed.

Lemma nodup_snoc : forall A (f : A -> Z) l l' x, NoDup (map f (l ++ l')) -> (forall y, In y (l ++ l') -> f y < f x) -> NoDup (map f (l ++ x :: l')).
Proof.
  intros A f l l' x N H. eapply Permutation_NoDup; [apply Permutation_map, Permutation_middle|]. cbn. constructor; [|assumption].
  intro Hi. apply in_map_iff in Hi. destruct Hi as [y [E Hy]]. specialize (H y Hy). lia.
Qed.

Lemma tstep_ok : forall g tr s p ps a, conf_ok g -> Inv g tr s (p :: ps) [] -> Bk g s ->
  step_good g tr ps (tstep g s p a) \/
  (exists c o, p = PInc c o /\ oget (s_objs s) o = None /\ tstep g s p a = UB).
Proof.
  intros g tr s p ps a G I B. pose proof (head_ok _ _ _ _ _ _ I) as Hp.
  destruct p as [|c|c o|c o|c o|c|c o|c o|c o l|c l|c o|c o|c o|c o|c o l|c l|c o f|c o f r v|c o r v]; cbn [tstep].
  - (* Idle *)
    left. apply (look_step g tr s Idle ps (a_call a) (fun s1 ob => match a_call a with CGet _ _ => Ok (s1, Idle, ob ++ ret (a_call a) (-1) None) | _ => Ok (s1, PAlloc (a_call a), ob) end)); auto.
    intros s1 ob I1 B1. destruct (a_call a) as [n k v w|n k|n k d] eqn:Ec.
    + exists s1, (PAlloc (CFirst n k v w)), ob. split; [reflexivity|]. split; [|assumption]. eapply Inv_swap; [exact I1|cbn; auto|reflexivity|reflexivity|reflexivity].
    + eexists s1, Idle, _. split; [reflexivity|]. split; [|assumption]. apply Inv_ret'; auto.
    + exists s1, (PAlloc (CStore n k d)), ob. split; [reflexivity|]. split; [|assumption]. eapply Inv_swap; [exact I1|cbn; auto|reflexivity|reflexivity|reflexivity].
  - (* PAlloc *)
    left. destruct (s_fdfree s <=? 0) eqn:Ef.
    + eexists s, Idle, _. split; [reflexivity|]. split; [|assumption]. apply Inv_ret; [|auto].
      eapply Inv_swap; [exact I|exact Logic.I|reflexivity|reflexivity|reflexivity].
    + eexists _, _, []. split; [reflexivity|]. rewrite app_nil_r. split; [|destruct B; split; assumption].
      assert (Hf : ~ In (s_next s) (map fst (s_objs s))).
      { intro Hi. apply in_map_iff in Hi. destruct Hi as [[o b] [E Hi]]. cbn in E. subst o.
        pose proof (v_ids _ _ _ _ _ I _ _ (In_oget _ _ _ (v_nodup _ _ _ _ _ I) Hi)). lia. }
      pose proof (oget_none _ _ Hf) as Hno.
      assert (Hc0 : cnt (stored_data (s_ct s) ++ flat_map held ps) (s_next s) = 0).
      { pose proof (v_ref _ _ _ _ _ I (s_next s)) as R. unfold rc in R. rewrite Hno in R. cbn [flat_map held holds app] in R. rewrite app_nil_r in R. lia. }
      destruct I. constructor; auto.
      * cbn. lia.
      * cbn. constructor; assumption.
      * cbn [add_fd set_next set_objs s_objs s_next oget fst snd]. intros o b. destruct (s_next s =? o) eqn:E; [lia|]. intro Hx. specialize (v_ids _ _ Hx). lia.
      * intro o. cbn [add_fd set_next set_objs s_objs s_ct flat_map held holds]. specialize (v_ref o). cbn [flat_map held holds app] in v_ref.
        rewrite app_nil_r in *. rewrite (cnt_perm _ (s_next s :: stored_data (s_ct s) ++ flat_map held ps)) by (symmetry; apply Permutation_middle).
        rewrite cnt_cons. unfold rc in *. cbn [oget fst snd]. destruct (s_next s =? o) eqn:E; [|lia]. assert (s_next s = o) by lia. subst o. cbn [o_ref]. lia.
      * cbn [add_fd set_next set_objs s_objs oget fst snd]. intros o b. destruct (s_next s =? o); [|eauto]. intro Hx. injection Hx as <-. cbn. lia.
      * cbn [add_fd set_next set_objs s_objs oget fst snd]. intros o b. destruct (s_next s =? o); [|eauto]. intro Hx. injection Hx as <-.
        repeat split; cbn; auto; try discriminate.
      * cbn [add_fd set_next set_objs s_objs s_ct oget fst snd]. intros c0 b Hc. destruct (s_next s =? c_data c0) eqn:E; [|eauto]. exfalso.
        apply in_tab_stored in Hc. apply cnt_in in Hc. rewrite cnt_app in Hc0. pose proof (cnt_nonneg (flat_map held ps) (s_next s)).
        replace (c_data c0) with (s_next s) in Hc by lia. lia.
      * apply Forall_cons_iff in v_pcs. destruct v_pcs as [_ v_pcs].
        assert (M : forall q, pc_ok tr s q -> pc_ok tr (add_fd (set_next (set_objs s ((s_next s, mkObj 1 Storing None [] (c_k c)) :: s_objs s)) (s_next s + 1)) (-1)) q).
        { intros q Hq. eapply pc_ok_mono; [eassumption|cbn; lia|auto|]. cbn [add_fd set_next set_objs s_objs oget fst snd]. intros o b' Ho.
          destruct (s_next s =? o) eqn:E; [lia|]. eauto. }
        apply Forall_cons; [|rewrite Forall_forall in *; auto].
        cbn [pc_ok]. split; [|exact Hp]. split; [cbn; lia|]. cbn [add_fd set_next set_objs s_objs oget fst snd]. rewrite Z.eqb_refl. intros b Hx. injection Hx as <-. reflexivity.
      * cbn [add_fd set_next set_objs s_fdfree]. lia.
      * cbn [add_fd set_next set_objs s_fdfree s_objs]. unfold zlen in *. cbn [length]. lia.
      * cbn [add_fd set_next s_next]. intros f Hf'. specialize (v_fidn f Hf'). cbn. lia.
  - (* PIns *)
    left. destruct (insert_op_ok g tr s c o ps (a_starved a) G I B) as [s' [r [ob [E [B' I']]]]]. rewrite E. cbn [obind].
    eexists _, _, _. split; [reflexivity|]. auto.
  - (* PInc *)
    destruct (oget (s_objs s) o) as [b|] eqn:Hb.
    + left. destruct (lock_ok _ _ _ _ _ _ _ I Hb) as [s' [E [I' [R1 [R2 R3]]]]]. rewrite E. cbn [obind].
      exists s', (PBody c o), []. split; [reflexivity|]. rewrite app_nil_r. split; [|destruct B; split; rewrite ?R1, ?R3; assumption].
      pose proof (head_ok _ _ _ _ _ _ I') as Hp'. cbn in Hp'. eapply Inv_swap; [exact I'|cbn; tauto|reflexivity|reflexivity|reflexivity].
    + right. exists c, o. split; [reflexivity|]. split; [assumption|]. unfold fragDataLock. rewrite Hb. reflexivity.
  - (* PLost *)
    left. cbn in Hp. apply (rel_step g tr s (PLost c o) ps o (PAgain c)); auto; cbn; tauto.
  - (* PAgain *)
    left. apply (look_step g tr s (PAgain c) ps c (fun s1 ob => Ok (s1, Idle, ob ++ ret c (-1) None))); auto.
    intros s1 ob I1 B1. eexists s1, Idle, _. split; [reflexivity|]. split; [|assumption]. apply Inv_ret'; [|auto].
    eapply Inv_swap; [exact I1|exact Logic.I|reflexivity|reflexivity|reflexivity].
  - (* PFull *)
    left. apply (unl_step g tr s (PFull c o) ps c o (-1) None); auto.
  - (* PBody *)
    left. destruct (held_alive _ _ _ _ _ _ o I eq_refl) as [b Hb]. rewrite Hb.
    pose proof (v_good _ _ _ _ _ I _ _ Hb) as Hg. cbn in Hp. pose proof Hp as [_ Hk]. specialize (Hk _ Hb).
    destruct c as [n k v w|n k|n k d].
    + destruct (o_state b) eqn:Es.
      * apply (stay g tr s (PBody (CFirst n k v w) o)); auto. cbn. split; [assumption|lia].
      * eexists _, _, _. split; [reflexivity|]. split; [|destruct B; split; assumption].
        apply (Inv_obj g tr s (PBody (CFirst n k v w) o) ps o b); auto.
        -- cbn. intros. discriminate.
        -- cbn [c_k] in Hk. repeat split; cbn; auto; try discriminate. intros v' E. injection E as <-. apply in_or_app. right. left. congruence.
        -- cbn. split; [|auto]. destruct Hp as [Hp1 Hp2]. split; [assumption|]. intro b'. cbn [set_obj set_objs s_objs]. rewrite oget_oset by eauto. rewrite Z.eqb_refl. intro E. injection E as <-. assumption.
        -- intros k0 v0 [E|[]]. discriminate.
        -- cbn [stored_tr app taken]. unfold wt at 2. cbn [snd o_key o_stored tag map app]. rewrite app_nil_r. unfold wt. cbn [snd]. rewrite Hk. reflexivity.
      * apply (stay g tr s (PBody (CFirst n k v w) o)); auto. cbn. split; [assumption|lia].
    + destruct (o_state b) eqn:Es.
      * apply (stay g tr s (PBody (CGet n k) o)); auto. cbn. split; [assumption|]. intros b' Hb'. rewrite Hb in Hb'. injection Hb' as <-. destruct Hg as [_ [Hg _]]. auto.
      * apply (stay g tr s (PBody (CGet n k) o)); auto. cbn. split; [assumption|lia].
      * apply (stay g tr s (PBody (CGet n k) o)); auto. cbn. split; [assumption|lia].
    + assert (St : step_good g tr ps (Ok (s, PCheck (CStore n k d) o, []))) by (apply (stay g tr s (PBody (CStore n k d) o)); auto; cbn; auto).
      destruct (o_state b); try exact St. destruct (a_done a); [|exact St].
      destruct (table_ok g tr s (PBody (CStore n k d) o :: ps) (ORemove n k) G I) as [s1 [v [ob [E [I1 [Hn [B1 _]]]]]]]; [intros; discriminate|].
      rewrite E. cbn [obind]. eexists _, _, _. split; [reflexivity|]. split; [|destruct (B1 B); split; assumption].
      apply Inv_reas. pose proof (head_ok _ _ _ _ _ _ I1) as Hp1. eapply Inv_swap; [exact I1|cbn in *; tauto|reflexivity|reflexivity|reflexivity].
  - (* PTaken *)
    left. cbn in Hp. apply (rel_step g tr s (PTaken c o l) ps o (PGive c l)); auto; cbn; tauto.
  - (* PGive *)
    left. cbn in Hp. destruct c as [n k v w|n k|n k d]; try contradiction.
    assert (Z0 : forall x, u32 (s_discarded s + 0) = x -> s_discarded s = x).
    { intros x Hx. rewrite <- Hx, Z.add_0_r, (v_disc _ _ _ _ _ I). unfold u32. rewrite Z.mod_mod; [reflexivity|discriminate]. }
    destruct w.
    + eexists _, _, _. split; [reflexivity|]. split; [|destruct B; split; assumption].
      apply (Inv_leave g tr s (PGive (CFirst n k v true) l) ps _ (tag k l) 0); auto.
      * cbn [add_fr]. rewrite zlen_tag. unfold add_fr. f_equal. apply Z0. reflexivity.
      * cbn [handed_tr discarded_tr ret c_k]. rewrite !app_nil_r. reflexivity.
      * intros k0 v0 [E|[E|[]]]; discriminate.
    + eexists _, _, _. split; [reflexivity|]. split; [|destruct B; split; assumption].
      apply (Inv_leave g tr s (PGive (CFirst n k v false) l) ps _ (tag k l) (zlen l)); auto.
      * cbn [add_fr add_disc]. rewrite zlen_tag. reflexivity.
      * cbn [discarded_tr ret]. rewrite app_nil_r, zlen_tag. reflexivity.
      * cbn [handed_tr discarded_tr ret]. rewrite app_nil_r. reflexivity.
      * intros k0 v0 [E|[E|[]]]; discriminate.
  - (* PCheck *)
    left. destruct (held_alive _ _ _ _ _ _ o I eq_refl) as [b Hb]. rewrite Hb. cbn in Hp. destruct Hp as [Hp Hs].
    destruct c as [n k v w|n k|n k d]; try contradiction.
    destruct (o_state b) eqn:Es.
    + apply (stay g tr s (PCheck (CStore n k d) o)); auto. cbn. split; [assumption|]. intros b' Hb'. rewrite Hb in Hb'. injection Hb' as <-.
      destruct (v_good _ _ _ _ _ I _ _ Hb) as [_ [Hg _]]. auto.
    + destruct (g_mtu g <? zlen d).
      * apply (stay g tr s (PCheck (CStore n k d) o)); auto. cbn. split; [assumption|lia].
      * apply (stay g tr s (PCheck (CStore n k d) o)); auto. cbn. auto.
    + apply (stay g tr s (PCheck (CStore n k d) o)); auto. cbn. split; [assumption|lia].
  - (* PVal *)
    left. destruct (held_alive _ _ _ _ _ _ o I eq_refl) as [b Hb]. rewrite Hb. cbn in Hp. destruct Hp as [Hp Hv].
    specialize (Hv _ Hb). destruct (o_val b) as [v|] eqn:Ev; [|congruence].
    apply (stay g tr s (PVal c o)); auto. cbn. split; [assumption|]. destruct (v_good _ _ _ _ _ I _ _ Hb) as [_ [_ Hg]].
    destruct Hp as [_ Hp]. rewrite <- (Hp _ Hb). auto.
  - (* PItem *)
    left. cbn in Hp. destruct Hp as [Hp Hs]. destruct c as [n k v w|n k|n k d]; try contradiction.
    destruct (s_frfree s <=? 0) eqn:Ef.
    + apply (stay g tr s (PItem (CStore n k d) o)); auto. cbn. auto.
    + eexists _, _, []. split; [reflexivity|]. rewrite app_nil_r. split; [|destruct B; split; assumption].
      pose proof (v_fidn _ _ _ _ _ I) as Hold. apply Inv_next in I. destruct I. constructor; auto.
      * apply Forall_cons_iff in v_pcs. destruct v_pcs as [Q1 Q2]. apply Forall_cons; [exact Q1|exact Q2].
      * cbn [add_fr set_next s_frfree]. lia.
      * cbn [add_fr set_next s_frfree flat_map hand taken app] in *. change (waiting (add_fr (set_next s (s_next s + 1)) (-1))) with (waiting (set_next s (s_next s + 1))).
        unfold zlen in *. cbn [length]. lia.
      * cbn [flat_map hand app] in *. apply nodup_snoc; [assumption|]. cbn [f_id]. intros y Hy. 
        exact (Hold y Hy).
      * cbn [flat_map hand app] in *. intros f Hf. apply in_app_iff in Hf. cbn [In] in Hf. destruct Hf as [Hf|[<-|Hf]].
        -- apply v_fidn. apply in_or_app. auto.
        -- cbn. lia.
        -- apply v_fidn. apply in_or_app. auto.
  - (* PPoison *)
    left. destruct (held_alive _ _ _ _ _ _ o I eq_refl) as [b Hb]. rewrite Hb. cbn in Hp. destruct Hp as [Hp Hs]. pose proof Hp as [_ Hk]. specialize (Hk _ Hb).
    eexists _, _, []. split; [reflexivity|]. split; [|destruct B; split; assumption].
    destruct (v_good _ _ _ _ _ I _ _ Hb) as [_ [_ Hg]].
    apply (Inv_obj g tr s (PPoison c o) ps o b); auto.
    + repeat split; cbn; auto; try discriminate. rewrite app_nil_r. assumption.
    + cbn. split; [|auto]. destruct Hp as [Hp1 Hp2]. split; [assumption|]. intro b'. cbn [set_obj set_objs s_objs]. rewrite oget_oset by eauto. rewrite Z.eqb_refl. intro E. injection E as <-. assumption.
    + cbn [stored_tr app taken]. unfold wt at 2. cbn [snd o_key o_stored tag map app]. rewrite app_nil_r. unfold wt. cbn [snd]. rewrite Hk. reflexivity.
  - (* PPoisoned *)
    left. cbn in Hp. apply (rel_step g tr s (PPoisoned c o l) ps o (PDrop c l)); auto; cbn; tauto.
  - (* PDrop *)
    left. eexists _, _, _. split; [reflexivity|]. split; [|destruct B; split; assumption].
    apply (Inv_leave g tr s (PDrop c l) ps _ (tag (c_k c) l) (zlen l)); auto.
    + cbn [add_fr add_disc]. rewrite zlen_tag. reflexivity.
    + cbn [discarded_tr ret]. rewrite app_nil_r, zlen_tag. reflexivity.
    + cbn [handed_tr discarded_tr ret]. rewrite app_nil_r. reflexivity.
    + intros k0 v0 [E|[E|[]]]; discriminate.
  - (* PPut *)
    left. destruct (held_alive _ _ _ _ _ _ o I eq_refl) as [b Hb]. rewrite Hb. cbn in Hp. destruct Hp as [Hp Hs]. pose proof Hp as [_ Hk]. specialize (Hk _ Hb).
    destruct (v_good _ _ _ _ _ I _ _ Hb) as [Hg1 [Hg2 Hg3]]. destruct (o_state b) eqn:Es.
    + destruct (o_val b) as [v|] eqn:Ev; [|exfalso; apply Hg2; reflexivity].
      apply (stay g tr s (PPut c o f)); auto. cbn. split; [assumption|]. split; [assumption|]. rewrite <- Hk. auto.
    + eexists _, _, _. split; [reflexivity|]. split; [|destruct B; split; assumption].
      apply (Inv_obj g tr s (PPut c o f) ps o b); auto.
      * repeat split; cbn; auto; try discriminate; [congruence|]. intros v E. apply in_or_app. left. auto.
      * cbn. split; [|lia]. destruct Hp as [Hp1 Hp2]. split; [assumption|]. intro b'. cbn [set_obj set_objs s_objs]. rewrite oget_oset by eauto. rewrite Z.eqb_refl. intro E. injection E as <-. assumption.
      * intros k0 v0 [E|[]]. discriminate.
      * cbn [stored_tr app taken]. unfold wt. cbn [snd o_key o_stored tag map app]. rewrite Hk. reflexivity.
    + apply (stay g tr s (PPut c o f)); auto. cbn. split; [assumption|]. split; [assumption|lia].
  - (* PBack *)
    left. eexists _, _, []. split; [reflexivity|]. rewrite app_nil_r. split; [|destruct B; split; assumption].
    cbn in Hp. destruct I. constructor; auto.
    + apply Forall_cons_iff in v_pcs. destruct v_pcs as [Q1 Q2]. apply Forall_cons; [cbn in *; tauto|exact Q2].
    + cbn [add_fr s_frfree]. lia.
    + cbn [add_fr s_frfree flat_map hand taken app] in *. change (waiting (add_fr s 1)) with (waiting s). unfold zlen in *. cbn [length] in *. lia.
    + cbn [flat_map hand app] in *. rewrite map_app in *. cbn [map] in v_fid. eapply NoDup_remove_1. eassumption.
    + cbn [flat_map hand app] in *. intros x Hx. apply v_fidn. apply in_app_iff in Hx. apply in_or_app. cbn. tauto.
  - (* PUnl *)
    left. cbn in Hp. apply (unl_step g tr s (PUnl c o r v) ps c o r v); auto. tauto.
Qed.

(** ** Executions *)
Lemma znth_perm : forall A (l : list A) i x, znth l i = Some x -> exists r, Permutation l (x :: r) /\ forall y, Permutation (zupd l i y) (y :: r).
Proof.
  intros A l i x H. destruct (znth_split _ _ _ _ H) as [a [r [-> Hu]]]. exists (a ++ r). split; [symmetry; apply Permutation_middle|].
  intro y. rewrite Hu. symmetry. apply Permutation_middle.
Qed.

Definition WInv (g : conf) (tr : list obs) (w : world) : Prop := Inv g tr (w_sys w) (w_pcs w) [] /\ Bk g (w_sys w).

Lemma gc_bucket_ok : forall g tr s ps i now, Inv g tr s ps [] -> Bk g s -> 0 <= i < zlen (t_buckets (s_ct s)) ->
  exists s' ob, gc_bucket s i now = Ok (s', ob) /\ Inv g (tr ++ ob) s' ps [] /\ Bk g s'.
Proof.
  intros g tr s ps i now I [B1 B2] Hi. unfold gc_bucket. destruct (znth_in_range _ _ _ Hi) as [b Hb].
  assert (Ea : aget (t_buckets (s_ct s)) i = Ok b) by (apply aget_ok; assumption). rewrite Ea. cbn [obind].
  destruct (bucketGC b now) as [[[b' ev] n] a] eqn:E.
  destruct (gc_one _ _ _ _ _ _ _ _ (v_wf _ _ _ _ _ I) Hb E) as [W [P1 [P2 [Ha Hs]]]].
  set (t := mkCt (zupd (t_buckets (s_ct s)) i b') (gcs (t_stats (s_ct s)) n)) in *.
  assert (I1 : Inv g tr (set_ct s t) ps (freed_data ev ++ [])).
  { apply (Inv_ct _ _ _ ps []); auto; [apply zlen_zupd| | |exact (v_pcs _ _ _ _ _ I)].
    - rewrite P1, !app_nil_r, <- app_assoc. apply Permutation_app_head. apply Permutation_app_comm.
    - intros c b0 Hc Hb0. destruct (Hs _ Hc) as [c0 [H1 [H2 H3]]]. rewrite <- H2. apply (v_entry _ _ _ _ _ I); [assumption|]. rewrite H3. assumption. }
  destruct (callbacks_ok _ _ _ _ _ _ I1) as [s' [ob [E2 [I2 [C1 [C2 C3]]]]]]. exists s', ob. split; [assumption|]. split; [assumption|].
  rewrite Ha in C3. cbn [set_ct s_ct s_bkfree] in *. change (zlen (@nil Z)) with 0 in C3. apply zlen_perm in P2. rewrite zlen_app in P2.
  pose proof (zlen_nonneg _ (freed_buckets ev)). split; [|rewrite C1]; lia.
Qed.

Lemma wstep_ok : forall g tr w l r, conf_ok g -> WInv g tr w -> wstep g w l = Some r ->
  (exists w' ob, r = Ok (w', ob) /\ WInv g (tr ++ ob) w') \/
  (r = UB /\ exists i a c o, l = LThread i a /\ znth (w_pcs w) i = Some (PInc c o) /\ oget (s_objs (w_sys w)) o = None).
Proof.
  intros g tr w l r G [I B] H. destruct l as [i a|i now]; cbn [wstep] in H.
  - destruct (znth (w_pcs w) i) as [p|] eqn:Hp; [|discriminate]. destruct (znth_perm _ _ _ _ Hp) as [ps [P1 P2]].
    assert (I1 : Inv g tr (w_sys w) (p :: ps) []) by (eapply Inv_perm; eauto).
    destruct (tstep_ok g tr (w_sys w) p ps a G I1 B) as [[s' [p' [ob [E [I2 B2]]]]]|[c [o [-> [Ho E]]]]]; rewrite E in H; cbn [obind] in H.
    + left. do 2 eexists. split; [symmetry; injection H as <-; reflexivity|]. split; [|assumption]. cbn [w_sys w_pcs].
      eapply Inv_perm; [exact I2|]. symmetry. apply P2.
    + right. split; [congruence|]. exists i, a, c, o. auto.
  - left. destruct ((0 <=? i) && (i <? zlen (t_buckets (s_ct (w_sys w))))) eqn:Ei; [|discriminate].
    apply andb_true_iff in Ei. destruct (gc_bucket_ok g tr (w_sys w) (w_pcs w) i now I B ltac:(lia)) as [s' [ob [E [I2 B2]]]].
    rewrite E in H. cbn [obind] in H. do 2 eexists. split; [symmetry; injection H as <-; reflexivity|]. split; assumption.
Qed.

Lemma flat_idle : forall A (f : pc -> list A) n, f Idle = [] -> flat_map f (repeat Idle n) = [].
Proof. intros A f n H. induction n as [|n IH]; [reflexivity|]. cbn. rewrite H. assumption. Qed.

Lemma start_ok : forall g n, conf_ok g -> WInv g [] (start g n).
Proof.
  intros g n [G1 [G2 G3]]. destruct (create_empty (g_hsize g)) as [E1 E2]. split.
  - cbn [start w_sys w_pcs]. unfold fragTableCreate. constructor; cbn [s_ct s_objs s_next s_fdfree s_frfree s_discarded].
    + apply create_winv.
    + unfold ctCreate. cbn [t_buckets]. rewrite zlen_repeat. lia.
    + lia.
    + constructor.
    + intros o b H. discriminate.
    + intro o. rewrite E1, flat_idle by reflexivity. reflexivity.
    + intros o b H. discriminate.
    + intros o b H. discriminate.
    + intros c b _ H. discriminate.
    + rewrite Forall_forall. intros p Hp. apply repeat_spec in Hp. subst p. exact I.
    + lia.
    + rewrite !flat_idle by reflexivity. unfold zlen. cbn. lia.
    + unfold u32. apply Z.mod_pos_bound. reflexivity.
    + unfold zlen. cbn [length Z.of_nat]. lia.
    + rewrite !flat_idle by reflexivity. cbn. constructor.
    + reflexivity.
    + rewrite flat_idle by reflexivity. constructor.
    + rewrite flat_idle by reflexivity. intros f [].
    + intros t1 k v t2 H. destruct t1; discriminate.
  - cbn [start w_sys]. unfold fragTableCreate. split; cbn [s_bkfree s_ct]; [lia|]. rewrite E2. unfold zlen. cbn [length Z.of_nat]. lia.
Qed.

Lemma exec_ok : forall g n w0 tr w, conf_ok g -> exec g w0 tr w -> w0 = start g n -> WInv g tr w.
Proof.
  intros g n w0 tr w G E. induction E as [w|w tr w1 l ob w2 E IH H]; intros ->; [apply start_ok; assumption|].
  destruct (wstep_ok g tr w1 l _ G (IH eq_refl) H) as [[w' [ob' [E1 I1]]]|[E1 _]]; [|discriminate].
  injection E1 as -> ->. assumption.
Qed.

(** ** C24 *)
Lemma NoDup_left : forall A (a b : list A), NoDup (a ++ b) -> NoDup a.
Proof.
  intros A a b. induction a as [|x a IH]; intro H; [constructor|]. cbn in H. apply NoDup_cons_iff in H. destruct H as [H1 H2].
  constructor; [|auto]. intro Hi. apply H1. apply in_or_app. left. assumption.
Qed.

Lemma conserved : forall g n tr w, conf_ok g -> exec g (start g n) tr w ->
  Permutation (stored_tr tr) (pending w ++ handed_tr tr ++ discarded_tr tr) /\
  NoDup (map (fun x => f_id (snd x)) (stored_tr tr)) /\
  zlen (pending w) <= g_maxFragments g /\
  s_discarded (w_sys w) = u32 (zlen (discarded_tr tr)) /\
  (forall o b, In (o, b) (s_objs (w_sys w)) -> o_state b <> Storing -> o_stored b = []).
Proof.
  intros g n tr w G E. destruct (exec_ok g n _ tr w G E eq_refl) as [I _]. destruct I. unfold pending.
  split; [rewrite <- app_assoc; assumption|].
  split. { rewrite map_app in v_fid. apply NoDup_left in v_fid. rewrite map_map in v_fid. assumption. }
  split. { rewrite zlen_app. pose proof (zlen_nonneg _ (flat_map hand (w_pcs w))). lia. }
  split; [assumption|]. intros o b Hi Hs. apply In_oget in Hi; [|assumption]. destruct (v_good _ _ Hi) as [Hg _]. auto.
Qed.

(** ** C25 *)
Lemma alive_iff : forall g n tr w o, conf_ok g -> exec g (start g n) tr w ->
  (allocated_obj w o <-> in_table w o \/ in_thread w o).
Proof.
  intros g n tr w o G E. destruct (exec_ok g n _ tr w G E eq_refl) as [I _].
  assert (Ha : allocated_obj w o <-> exists b, oget (s_objs (w_sys w)) o = Some b).
  { unfold allocated_obj. split; intros [b Hb]; exists b; [apply In_oget; [exact (v_nodup _ _ _ _ _ I)|assumption]|apply oget_In; assumption]. }
  rewrite Ha. clear Ha. pose proof (v_ref _ _ _ _ _ I o) as R. rewrite app_nil_r, cnt_app in R.
  assert (Ht : in_thread w o <-> In o (flat_map held (w_pcs w))).
  { unfold in_thread. rewrite in_flat_map. split; intros [p [H1 H2]]; exists p; (split; [assumption|]); unfold held in *.
    - rewrite H2. left. reflexivity.
    - destruct (holds p); [destruct H2 as [->|[]]; reflexivity|destruct H2]. }
  rewrite Ht. unfold in_table. split.
  - intros [b Hb]. pose proof (v_pos _ _ _ _ _ I _ _ Hb) as Hp. unfold rc in R. rewrite Hb in R.
    pose proof (cnt_nonneg (stored_data (s_ct (w_sys w))) o). pose proof (cnt_nonneg (flat_map held (w_pcs w)) o).
    destruct (Z_le_gt_dec 1 (cnt (stored_data (s_ct (w_sys w))) o)); [left|right]; apply cnt_pos_in; lia.
  - intro H. assert (1 <= rc (s_objs (w_sys w)) o).
    { rewrite R. pose proof (cnt_nonneg (stored_data (s_ct (w_sys w))) o). pose proof (cnt_nonneg (flat_map held (w_pcs w)) o).
      destruct H as [H|H]; apply cnt_in in H; lia. }
    unfold rc in *. destruct (oget (s_objs (w_sys w)) o); [eauto|lia].
Qed.

Lemma only_window : forall g n tr w l, conf_ok g -> exec g (start g n) tr w -> fails g w l ->
  exists i a o, l = LThread i a /\ window w i o /\ ~ allocated_obj w o.
Proof.
  intros g n tr w l G E [r [Hr Hno]]. pose proof (exec_ok g n _ tr w G E eq_refl) as WI.
  destruct (wstep_ok g tr w l r G WI Hr) as [[w' [ob [E1 _]]]|[_ [i [a [c [o [-> [Hp Ho]]]]]]]]; [exfalso; eapply Hno; eauto|].
  exists i, a, o. split; [reflexivity|]. split; [exists c; assumption|]. intros [b Hb]. destruct WI as [I _].
  rewrite (In_oget _ _ _ (v_nodup _ _ _ _ _ I) Hb) in Ho. discriminate.
Qed.

Lemma insert_tab : forall t now k ttl d al t' ev, winv t -> ctInsertWithTTL t now k ttl d al = Ok (t', 0, ev) -> In d (stored_data t').
Proof.
  intros t now k ttl d al t' ev W H. unfold ctInsertWithTTL in H. destruct (d =? 0) eqn:Ed; [discriminate|].
  destruct (slot (t_buckets t) k) as [i| | |]; try discriminate. cbn [obind] in H.
  destruct (aget (t_buckets t) i) as [b| | |] eqn:Eb; try discriminate. apply aget_ok in Eb. cbn [obind] in H.
  destruct (lookupBucket b now) as [[b1 ev1] n] eqn:HL.
  destruct (search b1 k now) as [[b' d']|] eqn:HS; [discriminate|].
  assert (Fin : forall b' s, In d (bucket_data b') -> In d (stored_data (mkCt (zupd (t_buckets t) i b') s))).
  { intros b' s Hd. unfold stored_data. cbn [t_buckets]. apply in_flat_map. exists b'. split; [|assumption].
    destruct (znth_split _ _ _ _ Eb) as [x [y [_ Hu]]]. rewrite Hu. apply in_elt. }
  destruct (c_data (b_main b1) =? 0) eqn:Em; [|destruct al as [mem|]]; [| |discriminate]; injection H as <- <-; apply Fin;
    unfold bucket_data; apply filter_In; rewrite Ed; cbn; auto.
Qed.

Definition safe_window (w : world) : Prop :=
  (forall i o, window w i o -> in_table w o) /\ (forall i o j o', window w i o -> window w j o' -> i = j).

Lemma tstep_window : forall g s p a s' c o ob, winv (s_ct s) -> tstep g s p a = Ok (s', PInc c o, ob) -> In o (stored_data (s_ct s')).
Proof.
  intros g s p a s' c o ob W H.
  assert (CB : forall ev s1 s2 ob2, callbacks s1 ev = Ok (s2, ob2) -> s_ct s2 = s_ct s1).
  { induction ev as [|e ev IH]; intros s1 s2 ob2 Hc; cbn [callbacks] in Hc; [injection Hc as <- <-; reflexivity|].
    assert (Step : forall s3 ob3, (match e with FreeData d => fragDataUnlock s1 d | FreeBucket _ => Ok (add_bk s1 1, []) | AllocBucket (Some _) => Ok (add_bk s1 (-1), []) | AllocBucket None => Ok (s1, []) end) = Ok (s3, ob3) -> s_ct s3 = s_ct s1).
    { intros s3 ob3 Hs. destruct e as [d|m|[m|]]; [|injection Hs as <- <-; reflexivity|injection Hs as <- <-; reflexivity|injection Hs as <- <-; reflexivity].
      unfold fragDataUnlock in Hs. destruct (oget (s_objs s1) d); [|discriminate]. destruct (o_ref o0 - 1 =? 0); injection Hs as <- <-; reflexivity. }
    destruct (match e with FreeData d => fragDataUnlock s1 d | FreeBucket _ => Ok (add_bk s1 1, []) | AllocBucket (Some _) => Ok (add_bk s1 (-1), []) | AllocBucket None => Ok (s1, []) end) as [[s3 ob3]| | |] eqn:Es; try discriminate.
    cbn [obind] in Hc. destruct (callbacks s3 ev) as [[s4 ob4]| | |] eqn:E4; try discriminate. cbn [obind] in Hc. injection Hc as <- <-.
    rewrite (IH _ _ _ E4). eapply Step; eauto. }
  destruct p as [|c0|c0 o0|c0 o0|c0 o0|c0|c0 o0|c0 o0|c0 o0 l|c0 l|c0 o0|c0 o0|c0 o0|c0 o0|c0 o0 l|c0 l|c0 o0 f|c0 o0 f r v|c0 o0 r v]; cbn [tstep] in H.
  3:{ destruct (insert_op g s (c_now c0) (c_k c0) o0 (a_starved a)) as [[[s1 r] ob1]| | |] eqn:E; try discriminate. cbn [obind] in H.
    destruct (r =? 0) eqn:Er; [|destruct (r =? 1); discriminate]. assert (Hx : s1 = s' /\ c0 = c /\ o0 = o) by (repeat split; congruence). destruct Hx as [-> [-> ->]].
    assert (r = 0) by lia. subst r. unfold insert_op in E.
    destruct (ctInsertWithTTL (s_ct s) (c_now c) (c_k c) (g_ttl g) o (Some (s_next s))) as [[[t0 v0] ev0]| | |]; try discriminate. cbn [obind] in E.
    unfold table_op in E. cbn [cstep set_next s_ct] in E.
    destruct (ctInsertWithTTL (s_ct s) (c_now c) (c_k c) (g_ttl g) o (if negb (a_starved a) && (0 <? s_bkfree s + zlen (freed_buckets ev0)) then Some (s_next s) else None)) as [[[t v] ev]| | |] eqn:Ei; try discriminate.
    cbn [obind] in E. destruct (callbacks (set_ct (set_next s (s_next s + 1)) t) ev) as [[s2 ob2]| | |] eqn:Ec; try discriminate. cbn [obind] in E.
    assert (Hx : s2 = s' /\ v = 0) by (split; congruence). destruct Hx as [-> ->]. rewrite (CB _ _ _ _ Ec). cbn [set_ct s_ct]. eapply insert_tab; eauto. }
  all: exfalso.
  - destruct (lookup_op s (c_now (a_call a)) (c_k (a_call a))) as [[[s1 o1] ob1]| | |]; try discriminate. cbn [obind] in H.
    destruct (o1 =? 0); [destruct (a_call a)|]; discriminate.
  - destruct (s_fdfree s <=? 0); discriminate.
  - destruct (fragDataLock s o0); discriminate.
  - destruct (fragDataUnlock s o0) as [[s1 ob1]| | |]; discriminate.
  - destruct (lookup_op s (c_now c0) (c_k c0)) as [[[s1 o1] ob1]| | |]; try discriminate. cbn [obind] in H. destruct (o1 =? 0); discriminate.
  - destruct (fragDataUnlock s o0) as [[s1 ob1]| | |]; discriminate.
  - destruct (oget (s_objs s) o0) as [b|]; [|discriminate]. destruct c0; [destruct (o_state b); discriminate|destruct (o_state b); discriminate|].
    destruct (o_state b); try discriminate. destruct (a_done a); [|discriminate]. destruct (table_op s (ORemove now k)) as [[[s1 v] ob1]| | |]; discriminate.
  - destruct (fragDataUnlock s o0) as [[s1 ob1]| | |]; discriminate.
  - destruct c0 as [n k v [|]|n k|n k d]; discriminate.
  - destruct (oget (s_objs s) o0) as [b|]; [|discriminate]. destruct (o_state b); try discriminate. destruct c0; try discriminate. destruct (g_mtu g <? zlen data); discriminate.
  - destruct (oget (s_objs s) o0) as [b|]; [|discriminate]. destruct (o_val b); discriminate.
  - destruct c0; try discriminate. destruct (s_frfree s <=? 0); discriminate.
  - destruct (oget (s_objs s) o0) as [b|]; discriminate.
  - destruct (fragDataUnlock s o0) as [[s1 ob1]| | |]; discriminate.
  - discriminate.
  - destruct (oget (s_objs s) o0) as [b|]; [|discriminate]. destruct (o_state b); try discriminate. destruct (o_val b); discriminate.
  - discriminate.
  - destruct (fragDataUnlock s o0) as [[s1 ob1]| | |]; discriminate.
Qed.

Lemma prompt_ok : forall g n w0 tr w, conf_ok g -> prompt_exec g w0 tr w -> w0 = start g n -> exec g w0 tr w /\ safe_window w.
Proof.
  intros g n w0 tr w G E. induction E as [w|w tr w1 l ob w2 E IH H Hpr]; intro Hw.
  - split; [constructor|]. subst w. split.
    + intros i o [c Hc]. cbn in Hc. apply znth_In in Hc. apply repeat_spec in Hc. discriminate.
    + intros i o j o' [c Hc]. cbn in Hc. apply znth_In in Hc. apply repeat_spec in Hc. discriminate.
  - destruct (IH Hw) as [E1 S1]. split; [econstructor; eauto|]. rewrite Hw in E1. destruct (exec_ok g n _ tr w1 G E1 eq_refl) as [I B].
    destruct l as [i a|i now]; cbn [wstep] in H.
    + destruct (znth (w_pcs w1) i) as [p|] eqn:Hp; [|discriminate].
      destruct (tstep g (w_sys w1) p a) as [[[s' p'] ob']| | |] eqn:Et; try discriminate. cbn [obind] in H.
      assert (Hx : w2 = mkWorld s' (zupd (w_pcs w1) i p')) by congruence. subst w2.
      pose proof (znth_some_range _ _ _ _ Hp) as Hr.
      assert (Only : forall j o, window (mkWorld s' (zupd (w_pcs w1) i p')) j o -> j = i).
      { intros j o [c Hc]. cbn [w_pcs] in Hc. destruct (Z.eq_dec j i) as [|Hne]; [assumption|]. rewrite znth_zupd_neq in Hc by congruence.
        assert (Hwn : window w1 j o) by (exists c; assumption). destruct (Hpr _ _ Hwn) as [a' Ea]. congruence. }
      split.
      * intros j o Hj. pose proof (Only _ _ Hj) as ->. destruct Hj as [c Hc]. cbn [w_pcs] in Hc. rewrite znth_zupd_eq in Hc by lia.
        assert (p' = PInc c o) by congruence. subst p'. unfold in_table. cbn [w_sys]. eapply tstep_window; [exact (v_wf _ _ _ _ _ I)|eassumption].
      * intros j o j' o' H1 H2. rewrite (Only _ _ H1), (Only _ _ H2). reflexivity.
    + assert (None1 : forall j o, ~ window w1 j o) by (intros j o Hj; destruct (Hpr _ _ Hj); discriminate).
      destruct ((0 <=? i) && (i <? zlen (t_buckets (s_ct (w_sys w1))))); [|discriminate].
      destruct (gc_bucket (w_sys w1) i now) as [[s' ob']| | |]; try discriminate. cbn [obind] in H.
      assert (Hx : w2 = mkWorld s' (w_pcs w1)) by congruence. subst w2.
      split; [intros j o Hj; exfalso; apply (None1 j o); exact Hj|intros j o j' o' Hj; exfalso; apply (None1 j o); exact Hj].
Qed.

Lemma prompt_safe : forall g n tr w l, conf_ok g -> prompt_exec g (start g n) tr w -> ~ fails g w l.
Proof.
  intros g n tr w l G E F. destruct (prompt_ok g n _ tr w G E eq_refl) as [E1 [S1 _]].
  destruct (only_window g n tr w l G E1 F) as [i [a [o [_ [Hw Ha]]]]]. apply Ha. apply (alive_iff g n tr w o G E1). left. eapply S1; eauto.
Qed.

(** ** C13, any interleaving *)
Lemma returned_accepted : forall g n tr w t1 k v t2, conf_ok g -> exec g (start g n) tr w ->
  tr = t1 ++ Returned k 0 (Some v) :: t2 -> In (Accepted k v) t1.
Proof.
  intros g n tr w t1 k v t2 G E Ht. destruct (exec_ok g n _ tr w G E eq_refl) as [I _]. exact (v_just _ _ _ _ _ I _ _ _ _ Ht).
Qed.
