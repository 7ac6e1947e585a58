(** Tun devices (C86). *)
From Verif Require Import Base Lists Cstr_Model Util_Proofs Tun_Model Tun_Spec.

(** ** Names in struct ifreq *)
Lemma span_all p n : Forall (fun c => p c = true) n -> forall r, span p (n ++ r) = let (a, b) := span p r in (n ++ a, b).
Proof.
  induction 1 as [|c n Hc _ IH]; intro r; cbn [app span]; [destruct (span p r); reflexivity|].
  rewrite Hc, IH. destruct (span p r). reflexivity.
Qed.
Lemma name_read n r : zlen n < 16 -> Forall (fun c => 0 < c < 256) n -> fst (span (fun c => negb (c =? 0)) (firstn 15 (n ++ 0 :: r))) = n.
Proof.
  intros L F. unfold zlen in L. rewrite firstn_app. rewrite firstn_all2 by lia.
  rewrite span_all by (eapply Forall_impl; [|exact F]; cbv beta; intros c Hc; destruct (c =? 0) eqn:E; [lia|reflexivity]).
  destruct (15 - length n)%nat; cbn; rewrite app_nil_r; reflexivity.
Qed.
Lemma alloc_name n f : zlen n < 16 -> Forall (fun c => 0 < c < 256) n -> nameOf (strncpyName (setFlags zeroed f) n) = n.
Proof.
  intros L F. unfold nameOf, strncpyName. rewrite firstn_app.
  assert (Hl : length (firstn 16 (n ++ repeat 0 16)) = 16%nat) by (rewrite firstn_length, app_length, repeat_length; lia).
  rewrite Hl. change (15 - 16)%nat with 0%nat. rewrite firstn_O, app_nil_r, firstn_firstn. change (Nat.min 15 16) with 15%nat. exact (name_read n (repeat 0 15) L F).
Qed.
Lemma alloc_flags n f : flagsOf (strncpyName (setFlags zeroed f) n) = f mod 256 + 256 * (f / 256 mod 256).
Proof.
  unfold flagsOf, strncpyName.
  assert (Hl : length (firstn 16 (n ++ repeat 0 16)) = 16%nat) by (rewrite firstn_length, app_length, repeat_length; lia).
  rewrite !app_nth2 by lia. rewrite Hl. reflexivity.
Qed.
Lemma mtu_name n r : zlen n < 16 -> Forall (fun c => 0 < c < 256) n -> nameOf (n ++ [0] ++ r) = n.
Proof. intros L F. exact (name_read n r L F). Qed.

Lemma not_in_forall (n : chars) c : ~ In c n -> Forall (fun x => negb (x =? c) = true) n.
Proof. induction n as [|x n IH]; intro H; constructor; [destruct (Z.eqb_spec x c); [exfalso; apply H; left; assumption|reflexivity]|apply IH; intro; apply H; right; assumption]. Qed.
Lemma valid_parts n : validName n = true -> n <> [] /\ ~ In 58 n.
Proof.
  unfold validName. intro H. apply andb_prop in H. destruct H as [H F]. rewrite forallb_forall in F. split.
  - intros ->. discriminate.
  - intro I. apply F in I. discriminate.
Qed.
Lemma good_template n : good_name n -> template n = false.
Proof.
  intros (V & _ & _ & P). destruct (valid_parts _ V) as [N _]. unfold template, inset. apply Bool.orb_false_iff. split.
  - destruct n; [congruence|reflexivity].
  - destruct (existsb (Z.eqb 37) n) eqn:E; [|reflexivity]. apply existsb_exists in E. destruct E as [c [Hi Hc]]. apply Z.eqb_eq in Hc. subst. contradiction.
Qed.
Lemma good_alias n : good_name n -> fst (span (fun c => negb (c =? 58)) n) = n.
Proof.
  intros (V & _). destruct (valid_parts _ V) as [_ N]. pose proof (span_all (fun c => negb (c =? 58)) n (not_in_forall _ _ N) []) as S.
  rewrite app_nil_r in S. rewrite S. cbn. apply app_nil_r.
Qed.

(** ** Devices *)
Lemma find_In K n d : find_dev K n = Some d -> In d (k_devs K) /\ d_name d = n.
Proof. intro H. apply find_some in H. destruct H as [H E]. split; [assumption|]. apply streq_eq. assumption. Qed.
Lemma find_not K n : find_dev K n = None -> forall d, In d (k_devs K) -> d_name d <> n.
Proof. intros H d Hd E. pose proof (find_none _ _ H d Hd) as X. cbv beta in X. rewrite E, streq_refl in X. discriminate. Qed.
Lemma In_find K n d : NoDup (map d_name (k_devs K)) -> In d (k_devs K) -> d_name d = n -> find_dev K n = Some d.
Proof.
  unfold find_dev. induction (k_devs K) as [|x l IH]; intros N I E; [contradiction|]. cbn [find]. cbn [map] in N. inversion N as [|? ? Hn Hd]; subst.
  destruct I as [->|I]; [rewrite streq_refl; reflexivity|].
  destruct (streq (d_name x) (d_name d)) eqn:X; [|apply IH; auto]. apply streq_eq in X. exfalso. apply Hn. rewrite X. apply in_map. assumption.
Qed.
Lemma same_name K d d' : NoDup (map d_name (k_devs K)) -> In d (k_devs K) -> In d' (k_devs K) -> d_name d = d_name d' -> d = d'.
Proof. intros N I I' E. pose proof (In_find K _ _ N I E) as A. pose proof (In_find K _ _ N I' eq_refl) as B. congruence. Qed.

Lemma set_names K n d' : d_name d' = n -> map d_name (k_devs (set_dev K n d')) = map d_name (k_devs K).
Proof.
  intro E. cbn [set_dev set_devs k_devs]. rewrite map_map. apply map_ext_in. intros d _. destruct (streq (d_name d) n) eqn:X; [|reflexivity].
  apply streq_eq in X. congruence.
Qed.
Lemma set_In K n d' d : d_name d' = n -> In d (k_devs (set_dev K n d')) <-> (d = d' /\ (exists d0, In d0 (k_devs K) /\ d_name d0 = n)) \/ (d_name d <> n /\ In d (k_devs K)).
Proof.
  intro E. cbn [set_dev set_devs k_devs]. rewrite in_map_iff. split.
  - intros [d0 [H I]]. destruct (streq (d_name d0) n) eqn:X.
    + apply streq_eq in X. left. split; [congruence|]. exists d0. auto.
    + right. subst d0. split; [|assumption]. intro Y. rewrite Y, streq_refl in X. discriminate.
  - intros [[-> [d0 [I X]]]|[X I]].
    + exists d0. rewrite X, streq_refl. auto.
    + exists d. split; [|assumption]. destruct (streq (d_name d) n) eqn:Y; [apply streq_eq in Y; contradiction|reflexivity].
Qed.

(** Closing *)
Definition closed (f : Z) (d : tdev) : list tdev :=
  match d_file d with
  | Some f' => if f' =? f then if d_temp d then [] else [mkDev (d_name d) (d_kind d) (d_mtu d) (d_up d) None (d_pi d) false] else [d]
  | None => [d]
  end.
Lemma close_devs K f : k_devs (closeFile K f) = flat_map (closed f) (k_devs K).
Proof. reflexivity. Qed.
Lemma closed_id f d : d_file d <> Some f -> closed f d = [d].
Proof. unfold closed. destruct (d_file d) as [f'|]; [|reflexivity]. destruct (f' =? f) eqn:X; [|reflexivity]. intro H. exfalso. apply H. f_equal. lia. Qed.
Lemma close_id l f : (forall d, In d l -> d_file d <> Some f) -> flat_map (closed f) l = l.
Proof.
  induction l as [|d l IH]; intro H; [reflexivity|]. cbn [flat_map]. rewrite IH by (intros; apply H; right; assumption).
  unfold closed. destruct (d_file d) as [f'|] eqn:E; [|reflexivity]. destruct (f' =? f) eqn:X; [|reflexivity].
  exfalso. apply (H d (or_introl eq_refl)). rewrite E. f_equal. lia.
Qed.
Lemma closed_name f d x : In x (closed f d) -> d_name x = d_name d /\ d_file x <> Some f /\
  (x = d \/ d_file d = Some f /\ d_file x = None /\ d_pi x = d_pi d /\ d_temp x = false).
Proof.
  unfold closed. destruct (d_file d) as [f'|] eqn:E.
  - destruct (f' =? f) eqn:X.
    + destruct (d_temp d); [intros []|]. intros [<-|[]]. cbn. split; [reflexivity|]. split; [discriminate|]. right. split; [f_equal; lia|auto].
    + intros [<-|[]]. split; [reflexivity|]. split; [rewrite E; intro Q; injection Q; lia|]. left. reflexivity.
  - intros [<-|[]]. split; [reflexivity|]. split; [rewrite E; discriminate|]. left. reflexivity.
Qed.
Lemma close_nodup K f : NoDup (map d_name (k_devs K)) -> NoDup (map d_name (k_devs (closeFile K f))).
Proof.
  rewrite close_devs. induction (k_devs K) as [|d l IH]; intro N; [constructor|]. cbn [map] in N. inversion N as [|? ? Hn Hd]; subst.
  cbn [flat_map]. rewrite map_app. assert (X : forall x, In x (map d_name (flat_map (closed f) l)) -> In x (map d_name l)).
  { intros x Hx. apply in_map_iff in Hx. destruct Hx as [y [<- Hy]]. apply in_flat_map in Hy. destruct Hy as [z [Hz Hy]].
    apply closed_name in Hy. destruct Hy as [-> _]. apply in_map. assumption. }
  assert (Y : closed f d = [] \/ exists y, closed f d = [y] /\ d_name y = d_name d).
  { unfold closed. destruct (d_file d); [|right; exists d; auto]. destruct (_ =? f); [|right; exists d; auto]. destruct (d_temp d); [left; reflexivity|]. right. eexists. split; reflexivity. }
  destruct Y as [->|[y [-> Hy]]]; cbn [map app]; [exact (IH Hd)|]. constructor; [|exact (IH Hd)]. rewrite Hy. intro Q. apply Hn. apply X. assumption.
Qed.

(** ** The invariant *)
Record TInv (h : thost) : Prop := mkTI {
  ti_names : NoDup (map d_name (k_devs (h_kern h)));
  ti_ids : NoDup (map p_id (h_lbs h));
  ti_pi : forall d, In d (k_devs (h_kern h)) -> d_pi d = false /\ (d_temp d = true -> d_file d <> None);
  ti_used : forall d f, In d (k_devs (h_kern h)) -> d_file d = Some f ->
     d_kind d = KTun /\ exists p, In p (h_lbs h) /\ p_id p = f /\ p_tun p = Some (d_name d) /\ p_fd p = f;
  ti_fd : forall p, In p (h_lbs h) -> match p_tun p with None => p_fd p = -1 | Some _ => p_fd p = p_id p /\ 0 <= p_id p end
}.

Lemma proc_In h i p : proc h i = Some p -> In p (h_lbs h) /\ p_id p = i.
Proof. intro H. apply find_some in H. destruct H as [H E]. split; [assumption|lia]. Qed.
Lemma proc_none h i : proc h i = None -> ~ In i (map p_id (h_lbs h)).
Proof. intros H I. apply in_map_iff in I. destruct I as [p [E I]]. pose proof (find_none _ _ H p I) as X. cbv beta in X. lia. Qed.
Lemma In_proc h p : NoDup (map p_id (h_lbs h)) -> In p (h_lbs h) -> proc h (p_id p) = Some p.
Proof.
  unfold proc. induction (h_lbs h) as [|x l IH]; intros N I; [contradiction|]. cbn [find]. cbn [map] in N. inversion N as [|? ? Hn Hd]; subst.
  destruct I as [->|I]; [rewrite Z.eqb_refl; reflexivity|]. destruct (p_id x =? p_id p) eqn:E; [|auto]. exfalso. apply Hn.
  replace (p_id x) with (p_id p) by lia. apply in_map. assumption.
Qed.

(** Nobody has the file of a process that is not there. *)
Lemma no_file h i d : TInv h -> proc h i = None -> In d (k_devs (h_kern h)) -> d_file d <> Some i.
Proof.
  intros T N I E. destruct (ti_used _ T _ _ I E) as [_ [p [Hp [Hi _]]]]. apply (proc_none _ _ N). rewrite <- Hi. apply in_map. assumption.
Qed.

(** ** A start *)
Lemma kern_eta K l : l = k_devs K -> set_devs K l = K.
Proof. intros ->. destruct K. reflexivity. Qed.
Lemma close_set_back K n d f : NoDup (map d_name (k_devs K)) -> (forall d, In d (k_devs K) -> d_file d <> Some f) -> In d (k_devs K) -> d_name d = n ->
  d_file d = None -> d_pi d = false -> d_temp d = false ->
  closeFile (set_dev K n (mkDev (d_name d) (d_kind d) (d_mtu d) (d_up d) (Some f) false (d_temp d))) f = K.
Proof.
  intros N Hf I E Ef Ep Et. unfold closeFile. cbn [set_dev set_devs k_devs k_create k_pick]. apply (kern_eta K). change (flat_map (closed f) (map (fun d0 => if streq (d_name d0) n then mkDev (d_name d) (d_kind d) (d_mtu d) (d_up d) (Some f) false (d_temp d) else d0) (k_devs K)) = k_devs K).
  assert (U : forall x, In x (k_devs K) -> d_name x = n -> x = d) by (intros x Hx Ex; apply (same_name K); congruence).
  revert U Hf. generalize (k_devs K). intro l. induction l as [|x l IH]; intros U Hf; [reflexivity|]. cbn [map flat_map].
  rewrite IH; [|intros; apply U; [right|]; assumption|intros; apply Hf; right; assumption].
  destruct (streq (d_name x) n) eqn:X.
  - apply streq_eq in X. assert (x = d) as -> by (apply U; [left; reflexivity|assumption]). unfold closed. cbn [d_file d_temp]. rewrite Z.eqb_refl, Et.
    cbn [d_name d_kind d_mtu d_up d_pi app]. destruct d; cbn in *; subst; reflexivity.
  - rewrite closed_id by (apply Hf; left; reflexivity). reflexivity.
Qed.
Lemma close_added K d f : (forall d, In d (k_devs K) -> d_file d <> Some f) -> d_file d = Some f -> d_temp d = true ->
  closeFile (set_devs K (k_devs K ++ [d])) f = K.
Proof.
  intros Hf E Et. unfold closeFile. cbn [set_devs k_devs k_create k_pick]. apply (kern_eta K). change (flat_map (closed f) (k_devs K ++ [d]) = k_devs K).
  rewrite flat_map_app, close_id by assumption. cbn [flat_map]. unfold closed. rewrite E, Z.eqb_refl, Et. cbn. apply app_nil_r.
Qed.
Lemma close_none K f : (forall d, In d (k_devs K) -> d_file d <> Some f) -> closeFile K f = K.
Proof. intro Hf. unfold closeFile. apply (kern_eta K). change (flat_map (closed f) (k_devs K) = k_devs K). apply close_id. assumption. Qed.

(** tun_alloc of a good name *)
Lemma alloc_good K f n : good_name n -> NoDup (map d_name (k_devs K)) -> (forall d, In d (k_devs K) -> d_file d <> Some f) ->
  (forall d, In d (k_devs K) -> d_pi d = false /\ (d_temp d = true -> d_file d <> None)) ->
  (exists d, In d (k_devs K) /\ d_name d = n /\ d_kind d = KTun /\ d_file d = None /\
     tun_alloc K true f n (Z.lor IFF_TUN IFF_NO_PI) = (set_dev K n (mkDev n KTun (d_mtu d) (d_up d) (Some f) false false), f) /\
     closeFile (set_dev K n (mkDev n KTun (d_mtu d) (d_up d) (Some f) false false)) f = K) \/
  ((forall d, In d (k_devs K) -> d_name d <> n) /\ k_create K = true /\
     tun_alloc K true f n (Z.lor IFF_TUN IFF_NO_PI) = (set_devs K (k_devs K ++ [mkDev n KTun 1500 false (Some f) false true]), f) /\
     closeFile (set_devs K (k_devs K ++ [mkDev n KTun 1500 false (Some f) false true])) f = K) \/
  (tun_alloc K true f n (Z.lor IFF_TUN IFF_NO_PI) = (K, -1) /\ (forall mtu, ~ usable_dev K n mtu)).
Proof.
  intros G N Hf Hp. pose proof G as (V & L & F & P). unfold tun_alloc, tunSetIff. rewrite alloc_name, alloc_flags by assumption.
  change (kindOf (Z.lor IFF_TUN IFF_NO_PI mod 256 + 256 * (Z.lor IFF_TUN IFF_NO_PI / 256 mod 256))) with (Some KTun).
  change (negb (Z.testbit (Z.lor IFF_TUN IFF_NO_PI mod 256 + 256 * (Z.lor IFF_TUN IFF_NO_PI / 256 mod 256)) 12)) with false. cbv beta iota zeta.
  rewrite (good_template _ G). destruct (find_dev K n) as [d|] eqn:E.
  - destruct (find_In _ _ _ E) as [I En]. destruct (Hp _ I) as [Hpi Htemp]. destruct (d_kind d) eqn:Ek; cbn [sameKind].
    + destruct (d_file d) as [f'|] eqn:Ef.
      * right. right. rewrite close_none by assumption. split; [reflexivity|]. intros mtu [[d' [I' [E' [_ [Hf' _]]]]]|[H _]]; [|exact (H _ I En)].
        assert (d' = d) as -> by (apply (same_name K); congruence). congruence.
      * left. exists d. assert (Et : d_temp d = false) by (destruct (d_temp d); [exfalso; apply Htemp; reflexivity|reflexivity]).
        repeat (split; [assumption|]). rewrite En, Et. split; [reflexivity|].
        pose proof (close_set_back K n d f N Hf I En Ef Hpi Et) as C. rewrite En, Ek, Et in C. exact C.
    + right. right. rewrite close_none by assumption. split; [reflexivity|]. intros mtu [[d' [I' [E' [Hk _]]]]|[H _]]; [|exact (H _ I En)].
      assert (d' = d) as -> by (apply (same_name K); congruence). congruence.
    + right. right. rewrite close_none by assumption. split; [reflexivity|]. intros mtu [[d' [I' [E' [Hk _]]]]|[H _]]; [|exact (H _ I En)].
      assert (d' = d) as -> by (apply (same_name K); congruence). congruence.
  - right. pose proof (find_not _ _ E) as Nn. rewrite V, Bool.andb_true_r.
    assert (existsb (fun d => streq (d_name d) n) (k_devs K) = false) as ->.
    { destruct (existsb _ _) eqn:X; [|reflexivity]. apply existsb_exists in X. destruct X as [d [I Hd]]. apply streq_eq in Hd. exfalso. exact (Nn _ I Hd). }
    rewrite Bool.andb_true_r. destruct (k_create K) eqn:Ec.
    + left. split; [assumption|]. split; [reflexivity|]. split; [reflexivity|]. apply close_added; [assumption|reflexivity|reflexivity].
    + right. rewrite close_none by assumption. split; [reflexivity|]. intros mtu [[d [I [Hn _]]]|[_ [H _]]]; [exact (Nn _ I Hn)|congruence].
Qed.
(** get_mtu of a good name *)
Lemma mtu_good K n d : good_name n -> NoDup (map d_name (k_devs K)) -> In d (k_devs K) -> d_name d = n -> get_mtu K true n = Ok (d_mtu d).
Proof.
  intros G N I E. pose proof G as (V & L & F & P). unfold get_mtu, strcpyName. destruct (40 <? zlen n + 1) eqn:X; [lia|]. cbn [obind].
  unfold getIfMtu. rewrite mtu_name, good_alias by assumption. rewrite (In_find K n d N I E). reflexivity.
Qed.

Lemma nodup_snoc A (l : list A) x : NoDup l -> ~ In x l -> NoDup (l ++ [x]).
Proof.
  induction l as [|y l IH]; intros N H; cbn [app]; [constructor; [intros []|constructor]|]. inversion N; subst. constructor.
  - rewrite in_app_iff. intros [Q|[<-|[]]]; [contradiction|]. apply H. left. reflexivity.
  - apply IH; [assumption|]. intro Q. apply H. right. assumption.
Qed.
Lemma open_good K a b i n mtu : 0 <= i -> 0 <= mtu -> good_name n -> NoDup (map d_name (k_devs K)) -> (forall d, In d (k_devs K) -> d_file d <> Some i) ->
  (forall d, In d (k_devs K) -> d_pi d = false /\ (d_temp d = true -> d_file d <> None)) ->
  exists K' r, openTun K a b i (Some n) mtu = Ok (K', r) /\
    ((r = Some i /\ a = true /\ b = true /\ usable_dev K n mtu /\ given_to K K' n i /\ k_create K' = k_create K /\ k_pick K' = k_pick K /\
        (forall d, In d (k_devs K') -> d_name d = n -> d_file d = Some i /\ d_kind d = KTun /\ d_pi d = false)) \/
     (r = None /\ K' = K /\ ~ (a = true /\ b = true /\ usable_dev K n mtu))).
Proof.
  intros Hi Hm G N Hf Hp. unfold openTun. destruct a.
  2:{ cbn [tun_alloc]. change (-1 <? 0) with true. cbv beta iota. exists K, None. rewrite close_none by assumption. split; [reflexivity|]. right. split; [reflexivity|]. split; [reflexivity|]. intros [Q _]. discriminate. }
  destruct (alloc_good K i n G N Hf Hp) as [[d [I [En [Ek [Ef [-> C]]]]]]|[[Nn [Ec [-> C]]]|[-> No]]].
  - destruct (i <? 0) eqn:X; [lia|]. set (d' := mkDev n KTun (d_mtu d) (d_up d) (Some i) false false) in *. set (K1 := set_dev K n d') in *.
    assert (N1 : NoDup (map d_name (k_devs K1))) by (unfold K1; rewrite set_names; [assumption|reflexivity]).
    assert (I1 : In d' (k_devs K1)) by (apply set_In; [reflexivity|left; split; [reflexivity|exists d; auto]]).
    destruct b.
    2:{ cbn [get_mtu obind]. destruct (-1 <? mtu) eqn:Y; [|lia]. exists K, None. rewrite C. split; [reflexivity|]. right. repeat split. intros [_ [Q _]]. discriminate. }
    rewrite (mtu_good K1 n d' G N1 I1 eq_refl). cbn [obind d_mtu d']. destruct (d_mtu d <? mtu) eqn:Y.
    + exists K, None. rewrite C. split; [reflexivity|]. right. repeat split. intros [_ [_ [[d0 [I0 [E0 [_ [_ L0]]]]]|[Q _]]]]; [|exact (Q _ I En)].
      assert (d0 = d) as -> by (apply (same_name K); congruence). lia.
    + exists K1, (Some i). split; [reflexivity|]. left. repeat (split; [reflexivity|]). split; [left; exists d; repeat (split; [assumption|]); lia|]. split.
      * split; [exists d'; repeat (split; [first [assumption|reflexivity]|]); reflexivity|]. split; [|assumption]. intros x Hx. unfold K1. rewrite set_In by reflexivity.
        split; [intros [[-> _]|[_ H]]; [exfalso; apply Hx; reflexivity|assumption]|intro H; right; auto].
      * split; [reflexivity|]. split; [reflexivity|]. intros x Hx Ex. apply set_In in Hx; [|reflexivity]. destruct Hx as [[-> _]|[Q _]]; [|contradiction]. auto.
  - destruct (i <? 0) eqn:X; [lia|]. set (d' := mkDev n KTun 1500 false (Some i) false true) in *. set (K1 := set_devs K (k_devs K ++ [d'])) in *.
    assert (N1 : NoDup (map d_name (k_devs K1))).
    { unfold K1. cbn [set_devs k_devs]. rewrite map_app. apply nodup_snoc; [assumption|]. intro Q. apply in_map_iff in Q. destruct Q as [x [E I]]. exact (Nn _ I E). }
    assert (I1 : In d' (k_devs K1)) by (unfold K1; cbn [set_devs k_devs]; apply in_or_app; right; left; reflexivity).
    destruct b.
    2:{ cbn [get_mtu obind]. destruct (-1 <? mtu) eqn:Y; [|lia]. exists K, None. rewrite C. split; [reflexivity|]. right. repeat split. intros [_ [Q _]]. discriminate. }
    rewrite (mtu_good K1 n d' G N1 I1 eq_refl). cbn [obind d_mtu d']. destruct (1500 <? mtu) eqn:Y.
    + exists K, None. rewrite C. split; [reflexivity|]. right. repeat split. intros [_ [_ [[d0 [I0 [E0 _]]]|[_ [_ Q]]]]]; [exact (Nn _ I0 E0)|lia].
    + exists K1, (Some i). split; [reflexivity|]. left. repeat (split; [reflexivity|]). split; [right; repeat (split; [assumption|]); lia|]. split.
      * split; [exists d'; repeat (split; [first [assumption|reflexivity]|]); reflexivity|]. split; [|assumption]. intros x Hx. unfold K1. cbn [set_devs k_devs]. rewrite in_app_iff.
        split; [intros [H|[<-|[]]]; [assumption|exfalso; apply Hx; reflexivity]|intro H; left; assumption].
      * split; [reflexivity|]. split; [reflexivity|]. intros x Hx Ex. unfold K1 in Hx. cbn [set_devs k_devs] in Hx. apply in_app_iff in Hx. destruct Hx as [Hx|[<-|[]]]; [exfalso; exact (Nn _ Hx Ex)|]. auto.
  - change (-1 <? 0) with true. cbv beta iota. exists K, None. rewrite close_none by assumption. split; [reflexivity|]. right. repeat split. intros [_ [_ Q]]. exact (No _ Q).
Qed.
