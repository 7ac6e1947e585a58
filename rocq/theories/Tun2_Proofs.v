(** Tun devices: histories on a host (C86). *)
From Verif Require Import Base Lists Cstr_Model Util_Proofs Tun_Model Tun_Spec Tun_Proofs.

Lemma set_file_inv h n d m up : TInv h -> find_dev (h_kern h) n = Some d ->
  TInv (mkTH (set_dev (h_kern h) n (mkDev (d_name d) (d_kind d) m up (d_file d) (d_pi d) (d_temp d))) (h_lbs h)).
Proof.
  intros [T1 T2 T3 T4 T5] E. destruct (find_In _ _ _ E) as [I En]. set (d' := mkDev (d_name d) (d_kind d) m up (d_file d) (d_pi d) (d_temp d)).
  assert (S : forall x, In x (k_devs (set_dev (h_kern h) n d')) -> x = d' \/ In x (k_devs (h_kern h))) by (intros x Hx; apply set_In in Hx; [|assumption]; tauto).
  constructor; cbn [h_kern h_lbs].
  - rewrite set_names by exact En. assumption.
  - assumption.
  - intros x Hx. destruct (S x Hx) as [->|Hy]; [exact (T3 _ I)|exact (T3 _ Hy)].
  - intros x f Hx Hf. destruct (S x Hx) as [->|Hy]; [exact (T4 _ _ I Hf)|exact (T4 _ _ Hy Hf)].
  - assumption.
Qed.

Definition ok_event (h : thost) (e : tev) : Prop :=
  forall i tun mtu a b, e = TStart i tun mtu a b -> 0 <= i /\ proc h i = None /\ match tun with Some n => good_name n | None => True end.
Lemma open_shape K a b i n mtu K' r : openTun K a b i (Some n) mtu = Ok (K', r) -> good_name n -> 0 <= i -> NoDup (map d_name (k_devs K)) -> (forall d, In d (k_devs K) -> d_file d <> Some i) ->
  (forall d, In d (k_devs K) -> d_pi d = false /\ (d_temp d = true -> d_file d <> None)) ->
  r = None /\ K' = K \/ r = Some i /\ NoDup (map d_name (k_devs K')) /\
    (forall d, In d (k_devs K') -> In d (k_devs K) \/ d_name d = n /\ d_file d = Some i /\ d_kind d = KTun /\ d_pi d = false).
Proof.
  intros H G Hi N Hf Hp. unfold openTun in H. destruct a.
  2:{ cbn [tun_alloc] in H. change (-1 <? 0) with true in H. cbv beta iota in H. rewrite close_none in H by assumption. injection H as <- <-. left. auto. }
  destruct (alloc_good K i n G N Hf Hp) as [[d [I [En [Ek [Ef [Ea C]]]]]]|[[Nn [Ec [Ea C]]]|[Ea No]]]; rewrite Ea in H.
  - destruct (i <? 0) eqn:X; [lia|]. destruct (get_mtu _ b n) as [m| | |]; try discriminate. cbn [obind] in H. destruct (m <? mtu).
    + rewrite C in H. injection H as <- <-. left. auto.
    + injection H as <- <-. right. split; [reflexivity|]. split; [rewrite set_names; [assumption|reflexivity]|]. intros x Hx. apply set_In in Hx; [|reflexivity]. destruct Hx as [[-> _]|[_ Hx]]; auto.
  - destruct (i <? 0) eqn:X; [lia|]. destruct (get_mtu _ b n) as [m| | |]; try discriminate. cbn [obind] in H. destruct (m <? mtu).
    + rewrite C in H. injection H as <- <-. left. auto.
    + injection H as <- <-. right. split; [reflexivity|]. split.
      * cbn [set_devs k_devs]. rewrite map_app. apply nodup_snoc; [assumption|]. intro Q. apply in_map_iff in Q. destruct Q as [x [E I]]. exact (Nn _ I E).
      * intros x Hx. cbn [set_devs k_devs] in Hx. apply in_app_iff in Hx. destruct Hx as [Hx|[<-|[]]]; auto.
  - change (-1 <? 0) with true in H. cbv beta iota in H. rewrite close_none in H by assumption. injection H as <- <-. left. auto.
Qed.

Lemma event_inv h e h' o : TInv h -> ok_event h e -> tevent h e = Ok (h', o) -> TInv h'.
Proof.
  intros T Hok H. pose proof T as [T1 T2 T3 T4 T5]. destruct e as [i tun mtu a b|i|i l|n k mtu|n|n mtu|n up]; cbn [tevent] in H.
  - destruct (Hok _ _ _ _ _ eq_refl) as [Hi [Np G]]. destruct (openTun (h_kern h) a b i tun mtu) as [[K' r]| | |] eqn:E; try discriminate. cbn [obind] in H.
    assert (Ids : NoDup (map p_id (mkLbp i tun (-1) :: h_lbs h))) by (cbn [map p_id]; constructor; [exact (proc_none _ _ Np)|assumption]).
    destruct tun as [n|].
    + destruct (open_shape _ _ _ _ _ _ _ _ E G Hi T1 (fun d Hd => no_file h i d T Np Hd) T3) as [[-> ->]|[-> [N1 S1]]]; injection H as <- <-.
      { destruct h. exact T. }
      constructor; cbn [h_kern h_lbs]; [assumption|exact Ids| | |].
      * intros d Hd. destruct (S1 d Hd) as [Hd'|[_ [Hf [_ Hpi]]]]; [exact (T3 _ Hd')|]. split; [assumption|]. congruence.
      * intros d f Hd Hf. destruct (S1 d Hd) as [Hd'|[En [Hf' [Hk _]]]].
        -- destruct (T4 _ _ Hd' Hf) as [Q [p [Hp Hr]]]. split; [assumption|]. exists p. split; [right; assumption|assumption].
        -- split; [assumption|]. exists (mkLbp i (Some n) i). assert (f = i) by congruence. cbn. subst. auto.
      * intros p [<-|Hp]; [cbn; auto|]. exact (T5 _ Hp).
    + cbn [openTun] in E. injection E as <- <-. injection H as <- <-. constructor; cbn [h_kern h_lbs]; [assumption|exact Ids|assumption| |].
      * intros d f Hd Hf. destruct (T4 _ _ Hd Hf) as [Q [p [Hp Hr]]]. split; [assumption|]. exists p. split; [right; assumption|assumption].
      * intros p [<-|Hp]; [reflexivity|]. exact (T5 _ Hp).
  - injection H as <- <-. constructor; cbn [h_kern h_lbs].
    + apply close_nodup. assumption.
    + clear - T2. induction (h_lbs h) as [|x l IH]; [constructor|]. cbn [map] in T2. inversion T2 as [|? ? Hn Hd]; subst. cbn [filter].
      destruct (negb (p_id x =? i)); [|exact (IH Hd)]. cbn [map]. constructor; [|exact (IH Hd)]. intro Q. apply Hn. apply in_map_iff in Q. destruct Q as [y [E I]].
      apply filter_In in I. rewrite <- E. apply in_map. apply I.
    + intros d Hd. rewrite close_devs in Hd. apply in_flat_map in Hd. destruct Hd as [x [Hx Hd]]. apply closed_name in Hd. destruct Hd as [_ [_ [->|[_ [_ [Hpi Ht]]]]]]; [exact (T3 _ Hx)|].
      split; [rewrite Hpi; apply (T3 _ Hx)|congruence].
    + intros d f Hd Hf. rewrite close_devs in Hd. apply in_flat_map in Hd. destruct Hd as [x [Hx Hd]]. apply closed_name in Hd. destruct Hd as [_ [Hne [->|[_ [Hn _]]]]]; [|congruence].
      destruct (T4 _ _ Hx Hf) as [Q [p [Hp Hr]]]. split; [assumption|]. exists p. split; [|assumption]. apply filter_In. split; [assumption|].
      destruct Hr as [Hr _]. destruct (p_id p =? i) eqn:X; [|reflexivity]. exfalso. apply Hne. rewrite Hf. f_equal. lia.
    + intros p Hp. apply filter_In in Hp. apply T5. apply Hp.
  - destruct (proc h i) as [p|]; [destruct (injectAll _ _ _)|]; injection H as <- <-; exact T.
  - destruct (find_dev (h_kern h) n) as [d|] eqn:E; injection H as <- <-; [exact T|]. destruct (validName n && (zlen n <? 16)); [|destruct h; exact T].
    constructor; cbn [h_kern h_lbs set_devs k_devs]; [|assumption| | |assumption].
    + rewrite map_app. apply nodup_snoc; [assumption|]. intro Q. apply in_map_iff in Q. destruct Q as [x [Ex I]]. exact (find_not _ _ E _ I Ex).
    + intros d Hd. apply in_app_iff in Hd. destruct Hd as [Hd|[<-|[]]]; [exact (T3 _ Hd)|]. cbn. split; [reflexivity|discriminate].
    + intros d f Hd Hf. apply in_app_iff in Hd. destruct Hd as [Hd|[<-|[]]]; [exact (T4 _ _ Hd Hf)|discriminate].
  - injection H as <- <-. constructor; cbn [h_kern h_lbs delDev set_devs k_devs]; [|assumption| | |assumption].
    + clear - T1. induction (k_devs (h_kern h)) as [|x l IH]; [constructor|]. cbn [map] in T1. inversion T1 as [|? ? Hn Hd]; subst. cbn [filter].
      destruct (negb (streq (d_name x) n)); [|exact (IH Hd)]. cbn [map]. constructor; [|exact (IH Hd)]. intro Q. apply Hn. apply in_map_iff in Q. destruct Q as [y [E I]].
      apply filter_In in I. rewrite <- E. apply in_map. apply I.
    + intros d Hd. apply filter_In in Hd. apply T3. apply Hd.
    + intros d f Hd. apply filter_In in Hd. apply T4. apply Hd.
  - destruct (find_dev (h_kern h) n) as [d|] eqn:E; injection H as <- <-; [|exact T]. apply set_file_inv; assumption.
  - destruct (find_dev (h_kern h) n) as [d|] eqn:E; injection H as <- <-; [|exact T]. apply set_file_inv; assumption.
Qed.
Lemma fresh_inv h : fresh_host h -> TInv h.
Proof.
  intros [E [N F]]. rewrite Forall_forall in F. constructor; rewrite ?E; [assumption|constructor| | |intros p []].
  - intros d Hd. destruct (F _ Hd) as [_ [Hp Ht]]. split; [assumption|congruence].
  - intros d f Hd Hf. destruct (F _ Hd) as [Q _]. congruence.
Qed.
Lemma hist_inv h l h' : TInv h -> thist h l h' -> TInv h'.
Proof. intros T H. induction H as [|h l h1 e o h2 _ IH Hok He]; [assumption|]. exact (event_inv _ _ _ _ (IH T) Hok He). Qed.

(** ** A start *)
Lemma start_good h0 l h i n mtu a b : fresh_host h0 -> thist h0 l h -> 0 <= i -> 0 <= mtu -> proc h i = None -> good_name n ->
  exists h' o, tevent h (TStart i (Some n) mtu a b) = Ok (h', o) /\
    (o = Runs /\ a = true /\ b = true /\ usable_dev (h_kern h) n mtu /\ given_to (h_kern h) (h_kern h') n i /\ h_lbs h' = mkLbp i (Some n) i :: h_lbs h \/
     o = Ends /\ h' = h /\ ~ (a = true /\ b = true /\ usable_dev (h_kern h) n mtu)).
Proof.
  intros F Hh Hi Hm Np G. pose proof (hist_inv _ _ _ (fresh_inv _ F) Hh) as T. pose proof T as [T1 T2 T3 T4 T5].
  destruct (open_good (h_kern h) a b i n mtu Hi Hm G T1 (fun d Hd => no_file h i d T Np Hd) T3) as [K' [r [E [[-> [Ha [Hb [U [Gv _]]]]]|[-> [-> Nu]]]]]]; cbn [tevent]; rewrite E; cbn [obind].
  - eexists. exists Runs. split; [reflexivity|]. left. cbn [h_kern h_lbs]. auto 10.
  - exists h, Ends. destruct h. auto.
Qed.

(** ** Who has a device *)
Lemma one_user h0 l h d f : fresh_host h0 -> thist h0 l h -> In d (k_devs (h_kern h)) -> d_file d = Some f ->
  exists p, proc h f = Some p /\ p_tun p = Some (d_name d) /\
    (forall d', In d' (k_devs (h_kern h)) -> d_file d' = Some f -> d' = d).
Proof.
  intros F Hh I Hf. pose proof (hist_inv _ _ _ (fresh_inv _ F) Hh) as [T1 T2 T3 T4 T5]. destruct (T4 _ _ I Hf) as [_ [p [Hp [Hi [Ht _]]]]]. exists p.
  split; [rewrite <- Hi; apply In_proc; assumption|]. split; [assumption|]. intros d' I' Hf'. destruct (T4 _ _ I' Hf') as [_ [p' [Hp' [Hi' [Ht' _]]]]].
  assert (p' = p) as -> by (pose proof (In_proc h p T2 Hp); pose proof (In_proc h p' T2 Hp'); congruence). apply (same_name (h_kern h)); congruence.
Qed.
(** It keeps it until its end, or until the device is deleted. *)
Lemma keeps h0 l h d f e h' o : fresh_host h0 -> thist h0 l h -> In d (k_devs (h_kern h)) -> d_file d = Some f -> ok_event h e -> tevent h e = Ok (h', o) ->
  e <> TEnd f -> e <> TDel (d_name d) -> exists d', In d' (k_devs (h_kern h')) /\ d_name d' = d_name d /\ d_file d' = Some f.
Proof.
  intros F Hh I Hf Hok H Ne Nd. pose proof (hist_inv _ _ _ (fresh_inv _ F) Hh) as T. pose proof T as [T1 T2 T3 T4 T5].
  assert (Set' : forall n d0 m up, find_dev (h_kern h) n = Some d0 -> exists d', In d' (k_devs (set_dev (h_kern h) n (mkDev (d_name d0) (d_kind d0) m up (d_file d0) (d_pi d0) (d_temp d0)))) /\ d_name d' = d_name d /\ d_file d' = Some f).
  { intros n d0 m up E. destruct (find_In _ _ _ E) as [I0 E0]. destruct (list_eq_dec Z.eq_dec (d_name d) n) as [En|Nn].
    - assert (d0 = d) as -> by (apply (same_name (h_kern h)); congruence). eexists. split; [apply set_In; [exact E0|left; split; [reflexivity|exists d; auto]]|]. cbn. auto.
    - exists d. split; [apply set_In; [exact E0|right; auto]|auto]. }
  destruct e as [i tun mtu a b|i|i ll|n k mtu|n|n mtu|n up]; cbn [tevent] in H.
  - destruct (Hok _ _ _ _ _ eq_refl) as [Hi [Np G]]. destruct (openTun (h_kern h) a b i tun mtu) as [[K' r]| | |] eqn:E; try discriminate. cbn [obind] in H.
    assert (h_kern h' = K') as -> by (destruct r; injection H as <- _; reflexivity).
    destruct tun as [n|]; [|cbn [openTun] in E; injection E as <- _; exists d; auto].
    unfold openTun in E. destruct a.
    2:{ cbn [tun_alloc] in E. change (-1 <? 0) with true in E. cbv beta iota in E. rewrite close_none in E by (intros d0 Hd; apply (no_file h); assumption). injection E as <- _. exists d. auto. }
    destruct (alloc_good (h_kern h) i n G T1 (fun d Hd => no_file h i d T Np Hd) T3) as [[d0 [I0 [En [Ek [Ef [Ea C]]]]]]|[[Nn [Ec [Ea C]]]|[Ea No]]]; rewrite Ea in E.
    + destruct (i <? 0) eqn:X; [lia|]. destruct (get_mtu _ b n) as [m| | |]; try discriminate. cbn [obind] in E. destruct (m <? mtu); [rewrite C in E|]; injection E as <- _; [exists d; auto|].
      exists d. split; [|auto]. apply set_In; [reflexivity|]. right. split; [|assumption]. intro Q. assert (d = d0) by (apply (same_name (h_kern h)); congruence). congruence.
    + destruct (i <? 0) eqn:X; [lia|]. destruct (get_mtu _ b n) as [m| | |]; try discriminate. cbn [obind] in E. destruct (m <? mtu); [rewrite C in E|]; injection E as <- _; [exists d; auto|].
      exists d. split; [|auto]. cbn [set_devs k_devs]. apply in_or_app. left. assumption.
    + change (-1 <? 0) with true in E. cbv beta iota in E. rewrite close_none in E by (intros d0 Hd; apply (no_file h); assumption). injection E as <- _. exists d. auto.
  - injection H as <- _. cbn [h_kern]. exists d. split; [|auto]. rewrite close_devs. apply in_flat_map. exists d. split; [assumption|].
    rewrite closed_id; [left; reflexivity|]. rewrite Hf. intro Q. apply Ne. congruence.
  - destruct (proc h i) as [p|]; [destruct (injectAll _ _ _)|]; injection H as <- _; exists d; auto.
  - destruct (find_dev (h_kern h) n) as [d0|] eqn:E; injection H as <- _; [exists d; auto|]. exists d. split; [|auto]. cbn [h_kern].
    destruct (validName n && (zlen n <? 16)); [|assumption]. cbn [set_devs k_devs]. apply in_or_app. left. assumption.
  - injection H as <- _. exists d. split; [|auto]. cbn [h_kern delDev set_devs k_devs]. apply filter_In. split; [assumption|].
    destruct (streq (d_name d) n) eqn:X; [|reflexivity]. apply streq_eq in X. exfalso. apply Nd. congruence.
  - destruct (find_dev (h_kern h) n) as [d0|] eqn:E; injection H as <- _; [|exists d; auto]. apply Set'. assumption.
  - destruct (find_dev (h_kern h) n) as [d0|] eqn:E; injection H as <- _; [|exists d; auto]. apply Set'. assumption.
Qed.

(** ** Fragments *)
Lemma file_find K f d : (forall d', In d' (k_devs K) -> d_file d' = Some f -> d' = d) -> In d (k_devs K) -> d_file d = Some f ->
  find (fun d => match d_file d with Some f' => f' =? f | None => false end) (k_devs K) = Some d.
Proof.
  intros U I E. destruct (find _ (k_devs K)) as [d'|] eqn:X.
  - apply find_some in X. destruct X as [I' E']. f_equal. apply U; [assumption|]. destruct (d_file d') as [f'|]; [|discriminate]. f_equal. lia.
  - pose proof (find_none _ _ X d I) as Y. cbv beta in Y. rewrite E, Z.eqb_refl in Y. discriminate.
Qed.
Lemma write_up K f d p : find (fun d => match d_file d with Some f' => f' =? f | None => false end) (k_devs K) = Some d -> d_kind d = KTun -> d_pi d = false -> d_up d = true ->
  ip_packet p -> writeFile K f p = (zlen p, [(d_name d, p)]).
Proof.
  intros Hf Hk Hp Hu [b [r [-> Hb]]]. unfold writeFile. rewrite Hf, Hu, Hk, Hp. cbn [negb Z.add Z.to_nat skipn].
  destruct (zlen (b :: r) <? 0) eqn:X; [pose proof (zlen_nonneg _ (b :: r)); lia|]. destruct Hb as [-> | ->]; reflexivity.
Qed.
Lemma inject_up K f d l : 0 <= f -> find (fun d => match d_file d with Some f' => f' =? f | None => false end) (k_devs K) = Some d -> d_kind d = KTun -> d_pi d = false -> d_up d = true ->
  Forall ip_packet l -> injectAll K f l = (map (pair (d_name d)) l, 0).
Proof.
  intros Hf0 Hf Hk Hp Hu. induction 1 as [|p l P _ IH]; [reflexivity|]. cbn [injectAll]. unfold injectFrag. destruct (0 <=? f) eqn:X; [|lia].
  rewrite (write_up K f d p Hf Hk Hp Hu P), IH, Z.eqb_refl. reflexivity.
Qed.
Lemma inject_down K f l : 0 <= f -> (forall d, In d (k_devs K) -> d_file d = Some f -> d_up d = false) -> injectAll K f l = ([], zlen l).
Proof.
  intros Hf0 Hd. assert (W : forall p, writeFile K f p = (-1, [])).
  { intro p. unfold writeFile. destruct (find _ (k_devs K)) as [d|] eqn:X; [|reflexivity]. apply find_some in X. destruct X as [I E].
    rewrite (Hd d I); [reflexivity|]. destruct (d_file d) as [f'|]; [|discriminate]. f_equal. lia. }
  induction l as [|p l IH]; [reflexivity|]. cbn [injectAll]. unfold injectFrag. destruct (0 <=? f) eqn:X; [|lia]. rewrite W, IH.
  destruct (-1 =? zlen p) eqn:Y; [pose proof (zlen_nonneg _ p); lia|]. cbn [negb app]. f_equal. unfold zlen. cbn [length]. lia.
Qed.
Lemma inject_where K f l : forall out w, injectAll K f l = (out, w) -> Forall (fun x => exists d, In d (k_devs K) /\ d_file d = Some f /\ d_name d = fst x) out.
Proof.
  induction l as [|p l IH]; intros out w H; cbn [injectAll] in H; [injection H as <- _; constructor|].
  destruct (injectFrag K f p) as [o1 w1] eqn:E. destruct (injectAll K f l) as [o2 n2]. injection H as <- _. apply Forall_app. split; [|exact (IH _ _ eq_refl)].
  unfold injectFrag in E. destruct (0 <=? f); [|injection E as <- _; constructor]. destruct (writeFile K f p) as [rc o] eqn:W. injection E as <- _.
  unfold writeFile in W. destruct (find _ (k_devs K)) as [d|] eqn:X; [|injection W as _ <-; constructor]. apply find_some in X. destruct X as [I Ef].
  assert (Q : exists d0, In d0 (k_devs K) /\ d_file d0 = Some f /\ d_name d0 = d_name d).
  { exists d. split; [assumption|]. split; [|reflexivity]. destruct (d_file d) as [f'|]; [|discriminate]. f_equal. lia. }
  destruct (d_up d); cbn [negb] in W; [|injection W as _ <-; constructor].
  match type of W with context [if ?c then _ else _] => destruct c end; [injection W as _ <-; constructor|].
  destruct (d_kind d); try (match type of W with context [match ?c with [] => _ | _ => _ end] => destruct c as [|b r] end; [injection W as _ <-; constructor|]; destruct ((b / 16 =? 4) || (b / 16 =? 6))); injection W as _ <-; repeat constructor; exact Q.
Qed.
Lemma inject_ok h0 hs h i p l : fresh_host h0 -> thist h0 hs h -> proc h i = Some p ->
  exists out w, tevent h (TInject i l) = Ok (h, Received out w) /\
    (forall n, connected h p n -> Forall ip_packet l -> out = map (pair n) l /\ w = 0) /\
    (p_tun p <> None -> disconnected h p -> out = [] /\ w = zlen l) /\
    (p_tun p = None -> out = []) /\
    Forall (fun x => p_tun p = Some (fst x)) out.
Proof.
  intros F Hh Hp. pose proof (hist_inv _ _ _ (fresh_inv _ F) Hh) as [T1 T2 T3 T4 T5]. destruct (proc_In _ _ _ Hp) as [Ip Ei]. cbn [tevent]. rewrite Hp.
  destruct (injectAll (h_kern h) (p_fd p) l) as [out w] eqn:E. exists out, w. split; [reflexivity|]. pose proof (T5 _ Ip) as Fd. split; [|split; [|split]].
  - intros n [Ht [d [I [En [Ef Hu]]]]] P. rewrite Ht in Fd. destruct Fd as [Fd Pos]. rewrite Fd in E.
    destruct (one_user _ _ _ _ _ F Hh I Ef) as [p' [_ [_ U]]]. destruct (T4 _ _ I Ef) as [Hk _]. destruct (T3 _ I) as [Hpi _].
    rewrite (inject_up _ _ d _ Pos (file_find _ _ _ U I Ef) Hk Hpi Hu P) in E. rewrite En in E. injection E as <- <-. auto.
  - intros Ht Hd. destruct (p_tun p) as [n|]; [|congruence]. destruct Fd as [Fd Pos]. rewrite Fd in E. rewrite (inject_down _ _ _ Pos Hd) in E. injection E as <- <-. auto.
  - intro Ht. rewrite Ht in Fd. rewrite Fd in E. assert (X : forall l, fst (injectAll (h_kern h) (-1) l) = []).
    { induction l0 as [|q l0 IH]; [reflexivity|]. cbn [injectAll injectFrag]. change (0 <=? -1) with false. cbv beta iota. destruct (injectAll (h_kern h) (-1) l0). cbn in *. assumption. }
    specialize (X l). rewrite E in X. exact X.
  - pose proof (inject_where _ _ _ _ _ E) as W. eapply Forall_impl; [|exact W]. cbv beta. intros x [d [I [Ef En]]]. destruct (T4 _ _ I Ef) as [_ [q [Iq [Eq [Tq _]]]]].
    assert (Fp : p_fd p = p_id p). { destruct (p_tun p); [apply Fd|]. pose proof (T5 _ Iq) as Fq. rewrite Tq in Fq. lia. }
    assert (q = p) as -> by (pose proof (In_proc h p T2 Ip); pose proof (In_proc h q T2 Iq); congruence). congruence.
Qed.
