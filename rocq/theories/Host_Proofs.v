(** Flow commands of flowlb one at a time, for C79. *)
From Coq Require Import String Permutation.
From Verif Require Import Base Lists Cstr_Model Util_Proofs Maglev_Model Rangeset_Model Flow_Model Flow_Spec Flow_Proofs Flow2_Proofs Flow3_Proofs Remote_Model
  FlowLb_Model FlowLb_Spec FlowLb_Proofs Requests_Spec FlowLb2_Proofs FlowLb4_Proofs FlowLb5_Proofs Requests_Proofs.

(** ** Releasing an object *)
(** Objects keep their targets and regions. *)
Definition kept (s s' : state) : Prop :=
  forall b o', deref s' b = Some o' -> b <= zlen (t_objs s) -> exists o, deref s b = Some o /\ lb_target o' = lb_target o /\ lb_region o' = lb_region o.
Lemma kept_refl s : kept s s.
Proof. intros b o D _. eauto. Qed.
Lemma kept_trans s s1 s2 : zlen (t_objs s) <= zlen (t_objs s1) -> kept s s1 -> kept s1 s2 -> kept s s2.
Proof. intros Z1 K1 K2 b o D B. destruct (K2 b o D) as (o1 & D1 & T1 & R1); [lia|]. destruct (K1 b o1 D1 B) as (o2 & D2 & T2 & R2). exists o2. split; auto. split; congruence. Qed.
Lemma kept_objs s s' : t_objs s' = t_objs s -> kept s s'.
Proof. intros E b o D _. rewrite (deref_ext s s' b E) in D. eauto. Qed.
Lemma kept_put s a o x : deref s a = Some o -> lb_target x = lb_target o -> lb_region x = lb_region o -> kept s (put s a x).
Proof.
  intros D T R b o' D' _. rewrite (deref_put s a x b o D) in D'. destruct (Z.eqb_spec b a) as [->|N]; [|eauto].
  destruct (lb_freed x); [discriminate|]. exists o. split; auto. split; congruence.
Qed.
Lemma put_len s a x : zlen (t_objs (put s a x)) = zlen (t_objs s).
Proof. unfold put, set_objs. cbn [t_objs]. apply zlen_zupd. Qed.
Lemma unlink_flows s set a : forall l, unlink (set_flows s set) l a = unlink s l a.
Proof. induction l as [|x l IH]; cbn [unlink]; auto. rewrite (deref_ext s (set_flows s set) x eq_refl). destruct (deref s x); auto. destruct (x =? a); auto. rewrite IH. auto. Qed.
Lemma put_flows s set a x : put (set_flows s set) a x = set_flows (put s a x) set.
Proof. reflexivity. Qed.
Lemma after_after e1 e2 x : after e1 (after e2 x) = after (e1 ++ e2) x.
Proof. destruct x as [[[r s] e]|]; cbn; auto. rewrite app_assoc. auto. Qed.

Lemma release_run l s own a : inv s (Hold a :: own) -> a <> 0 -> refs (t_set s) (Hold a :: own) a < 2147483648 ->
  exists s1 ev, (forall set k, runp (release l a k) (set_flows s set) = after ev (runp k (set_flows s1 set))) /\
    inv s1 own /\ t_set s1 = t_set s /\ kept s s1 /\ zlen (t_objs s1) = zlen (t_objs s) /\ t_shm s1 = t_shm s /\ t_mem s1 = t_mem s.
Proof.
  intros I N B. destruct (inv_gave s own a I N B) as (o & D & R0 & I1 & I2). cbv zeta in *.
  set (r := s32 (lb_ref o - 1)) in *. set (o1 := mkLb (lb_target o) r (lb_region o) (lb_freed o)) in *.
  assert (K1 : kept s (put s a o1)) by (apply (kept_put s a o o1); auto).
  destruct (Z.eq_dec r 0) as [E|E].
  - specialize (I1 E). destruct (inv_unlink _ _ _ I1) as ((o2 & D2) & l' & U & I3).
    destruct (inv_free _ _ _ I3) as (o3 & D3 & I4). set (s2 := set_list (put s a o1) l') in *. set (x3 := mkLb (lb_target o3) (lb_ref o3) (lb_region o3) true) in *.
    exists (put s2 a x3), [Gave a; Released a]. split.
    { intros set k. unfold release. rewrite (proj2 (Z.eqb_neq a 0) N).
      rewrite (run_act _ _ (set_flows s set) [Gave a] (set_flows (put s a o1) set) (Act Quiet (fun s =>
            match deref s a, unlink s (t_list s) a with
            | Some _, Some l' =>
                Next [] (set_list s l') (Act Quiet (fun s =>
                  match deref s a with
                  | None => BadUse
                  | Some o => Next [Released a] (put s a (mkLb (lb_target o) (lb_ref o) (lb_region o) true)) k
                  end))
            | _, _ => BadUse
            end))).
      2:{ rewrite (deref_ext s (set_flows s set) a eq_refl), D. fold r. replace (r <? 0) with false by lia. replace (r =? 0) with true by lia. reflexivity. }
      rewrite (run_act _ _ (set_flows (put s a o1) set) [] (set_flows s2 set) (Act Quiet (fun s =>
                  match deref s a with
                  | None => BadUse
                  | Some o => Next [Released a] (put s a (mkLb (lb_target o) (lb_ref o) (lb_region o) true)) k
                  end))).
      2:{ rewrite (deref_ext (put s a o1) (set_flows (put s a o1) set) a eq_refl), D2, unlink_flows. cbn [t_list set_flows]. rewrite U. reflexivity. }
      rewrite (run_act _ _ (set_flows s2 set) [Released a] (set_flows (put s2 a x3) set) k).
      2:{ rewrite (deref_ext s2 (set_flows s2 set) a eq_refl), D3. reflexivity. }
      rewrite !after_after. reflexivity. }
    split; [exact I4|]. split; [reflexivity|]. split.
    { apply (kept_trans s (put s a o1)); [rewrite put_len; lia|auto|]. apply (kept_trans _ s2); [unfold s2; cbn [set_list t_objs]; lia|apply kept_objs; reflexivity|].
      apply (kept_put s2 a o3); auto. }
    split; [rewrite put_len; unfold s2; cbn [set_list t_objs]; apply put_len|]. split; reflexivity.
  - exists (put s a o1), [Gave a]. split.
    { intros set k. unfold release. rewrite (proj2 (Z.eqb_neq a 0) N). apply run_act.
      rewrite (deref_ext s (set_flows s set) a eq_refl), D. fold r. replace (r <? 0) with false by lia. replace (r =? 0) with false by lia. reflexivity. }
    split; [apply I2; auto|]. split; [reflexivity|]. split; [auto|]. split; [apply put_len|]. split; reflexivity.
Qed.

(** ** The flow set *)
Lemma find_delete n l : findName l n = fst (flowDelete l n).
Proof. induction l as [|h l IH]; cbn [findName flowDelete]; auto. destruct (named n h); auto. rewrite IH. destruct (flowDelete l n); auto. Qed.
Lemma zlen_countb {A} (l : list A) : zlen l = countb (fun _ => true) l.
Proof. unfold countb. f_equal. induction l as [|x l IH]; cbn; congruence. Qed.

Definition tidy (set : list frec) : Prop := sane 0 set /\ forall f, In f set -> 0 <= f_udpencap f.
Definition upd_now (now : chars -> option fargs) (n : chars) (a : option fargs) : chars -> option fargs := fun m => if streq m n then a else now m.
(** The flows after flow n was set, and after one with the udp port u was deleted *)
Definition upd_set (now : chars -> option fargs) (c : flowcmd) (n : chars) (a : Z) : chars -> option fargs :=
  upd_now (if c_udpencap c =? 0 then now else upd_now now (35 :: n) (Some (udpArgs c n))) n (Some (cmdArgs c n a)).
Definition upd_del (now : chars -> option fargs) (n : chars) (u : Z) : chars -> option fargs :=
  if u =? 0 then upd_now now n None else upd_now (upd_now now n None) (35 :: n) None.

Definition acceptable (L : libc) (c : flowcmd) (n : chars) : Prop :=
  c_name c = Some n /\ own_name n /\ zlen n <= 1000 /\ (exists r, means L (cmdArgs c n 0) r) /\ close_priority 0 (c_priority c) /\ 0 <= c_udpencap c < 65536 /\
  (c_udpencap c <> 0 -> exists p, c_protocols c = Some [p] /\ any_case p (str "sctp")).

Definition of_ref (b : Z) (f : frec) : bool := f_ref f =? b.
Definition one_of (b : Z) (f : option frec) : Z := match f with None => 0 | Some g => if of_ref b g then 1 else 0 end.
Lemma main_calm L s0 set now c n a : libc_ok L -> acceptable L c n -> stands L set now -> tidy set -> good_set set -> inv s0 [Hold a] ->
  (forall b, b <> 0 -> countb (of_ref b) (t_set s0) = countb (of_ref b) set - one_of b (findName set n)) -> a <> 0 ->
  exists set', runp (define L (cmdArgs c n a) (Ret (Reply "OK"))) (set_flows s0 set) = Some (Reply "OK", set_flows s0 set', []) /\ inv (set_flows s0 set') [] /\
    stands L set' (upd_now now n (Some (cmdArgs c n a))) /\ tidy set' /\ zlen set' <= zlen set + 1.
Proof.
  intros HL (CN & ON & ZN & (r & HM) & CP & CU & PS) ST (SN & PL) GS I ES NA.
  assert (HM' : means L (cmdArgs c n a) r) by exact HM.
  pose proof (define_set L set (cmdArgs c n a) r HL (gs_names _ GS) HM') as D.
  destruct (define_stops 0 L set (cmdArgs c n a) r HL (gs_names _ GS) HM' SN CP) as (x & DX). rewrite DX in D.
  destruct x as [[e|] set']; [contradiction|]. destruct D as (f & MF & A & ND & IN & CT). cbn [cmdArgs a_name] in IN, CT.
  assert (FN : f_name f = n) by apply A. assert (FR : f_ref f = a) by apply A. assert (FU : f_udpencap f = c_udpencap c) by apply A.
  assert (FP : f_priority f = c_priority c) by apply A.
  exists set'. split.
  { unfold define. rewrite (run_act _ _ (set_flows s0 set) [] (set_flows s0 set') (Ret (Reply "OK"))); [reflexivity|]. cbn [t_set set_flows]. rewrite DX. reflexivity. }
  assert (GS' : good_set set').
  { constructor; auto.
    - intros g G. apply IN in G. destruct G as [->|(G & _)]; [congruence|]. apply (gs_own _ GS g G).
    - intros g G NO. apply IN in G. destruct G as [->|(G & _)]; [rewrite FN in NO; tauto|]. apply (gs_comp _ GS g G); auto.
    - intros g G R0 U0. apply IN in G. destruct G as [->|(G & _)]; [|apply (gs_udp _ GS g G); auto].
      destruct PS as (p & P1 & P2); [congruence|]. apply (proto_sctp (cmdArgs c n a) r f p A); auto. apply HM. }
  split; [|split; [|split; [split|]]].
  - apply (inv_set s0 [Hold a] set' [] I GS'); intros b; [|reflexivity|reflexivity]. intros NB. rewrite refs_hold. unfold refs. rewrite CT, countb_nil, FR.
    specialize (ES b NB). unfold one_of, of_ref in ES. rewrite ES. destruct (findName set n); lia.
  - pose proof (stands_run L set now [Define (cmdArgs c n a)] set' [Defined None] ST (run_define1 _ _ _ _ _ DX)) as X. exact X.
  - apply (sane_define 0 set set' f n SN IN); [rewrite FP; auto|rewrite FN; lia].
  - intros g G. apply IN in G. destruct G as [->|(G & _)]; [lia|auto].
  - rewrite !zlen_countb, CT. destruct (findName set n); lia.
Qed.
Lemma own_other n : own_name n -> n <> 35 :: n.
Proof. intros O E. exact (O n E). Qed.
Lemma comp_calm L set now c n : libc_ok L -> acceptable L c n -> c_udpencap c <> 0 -> stands L set now -> tidy set -> good_set set ->
  exists set', flowDefine L set (udpArgs c n) = Ok (None, set') /\ good_set set' /\ stands L set' (upd_now now (35 :: n) (Some (udpArgs c n))) /\ tidy set' /\ zlen set' <= zlen set + 1 /\
    findName set' n = findName set n /\ forall b, b <> 0 -> countb (of_ref b) set' = countb (of_ref b) set.
Proof.
  intros HL (CN & ON & ZN & (r & HM) & CP & CU & PS) U0 ST (SN & PL) GS.
  destruct (companion_means L c n r HM ZN) as (r' & HM'); [lia|].
  pose proof (define_set L set (udpArgs c n) r' HL (gs_names _ GS) HM') as D.
  destruct (define_stops 0 L set (udpArgs c n) r' HL (gs_names _ GS) HM' SN CP) as (x & DX). rewrite DX in D.
  destruct x as [[e|] set']; [contradiction|]. destruct D as (f & MF & A & ND & IN & CT). cbn [udpArgs a_name] in IN, CT.
  assert (FN : f_name f = 35 :: n) by apply A. assert (FR : f_ref f = 0) by apply A. assert (FU : f_udpencap f = c_udpencap c) by apply A.
  assert (FP : f_priority f = c_priority c) by apply A.
  exists set'. split; [exact DX|]. split; [|split; [|split; [split|split; [|split]]]].
  - constructor; auto.
    + intros g G O. apply IN in G. destruct G as [->|(G & _)]; [|apply (gs_own _ GS g G); auto]. rewrite FN in O. destruct (not_own n O).
    + intros g G NO. apply IN in G. destruct G as [->|(G & _)]; auto. apply (gs_comp _ GS g G); auto.
    + intros g G R0 U1. apply IN in G. destruct G as [->|(G & _)]; [congruence|apply (gs_udp _ GS g G); auto].
  - exact (stands_run L set now [Define (udpArgs c n)] set' [Defined None] ST (run_define1 _ _ _ _ _ DX)).
  - apply (sane_define 0 set set' f (35 :: n) SN IN); [rewrite FP; auto|rewrite FN; unfold zlen in *; cbn [length]; lia].
  - intros g G. apply IN in G. destruct G as [->|(G & _)]; [lia|auto].
  - rewrite !zlen_countb, CT. destruct (findName set (35 :: n)); lia.
  - apply find_same; auto; [apply (gs_names _ GS)|]. intros g GN. rewrite IN. split.
    + intros [->|(G & _)]; auto. exfalso. apply (own_other n ON). congruence.
    + intros G. right. split; auto. intros X. apply (own_other n ON). congruence.
  - intros b NB. rewrite CT. unfold of_ref. rewrite FR. replace (0 =? b) with false by lia.
    pose proof (find_name set (35 :: n) (gs_names _ GS)) as FX. destruct (findName set (35 :: n)) as [g|]; [|lia].
    destruct FX as (F1 & F2). rewrite (gs_comp _ GS g F1) by (rewrite F2; apply not_own). replace (0 =? b) with false by lia. lia.
Qed.
Lemma set_runs L c n a : acceptable L c n -> a <> 0 ->
  setFlow L c a = if c_udpencap c =? 0 then define L (cmdArgs c n a) (Ret (Reply "OK")) else define L (udpArgs c n) (define L (cmdArgs c n a) (Ret (Reply "OK"))).
Proof.
  intros (CN & ON & ZN & _ & _ & CU & PS) NA. unfold setFlow. rewrite (proj2 (Z.eqb_neq a 0) NA), CN. cbv zeta. destruct (Z.eqb_spec (c_udpencap c) 0) as [U0|U0]; [reflexivity|].
  destruct (PS U0) as (p & P1 & P2). rewrite P1.
  assert (CE : caseeq p (str "sctp") = true) by (unfold caseeq; apply streq_eq; rewrite (lower_case _ _ P2); [reflexivity|cbn; repeat constructor; lia]).
  rewrite CE. replace (1021 <? zlen n) with false by lia. reflexivity.
Qed.
Lemma define_calm L s0 set now c n a : libc_ok L -> acceptable L c n -> stands L set now -> tidy set -> good_set set -> inv s0 [Hold a] -> t_set s0 = snd (flowDelete set n) -> a <> 0 ->
  exists set', runp (setFlow L c a) (set_flows s0 set) = Some (Reply "OK", set_flows s0 set', []) /\ inv (set_flows s0 set') [] /\
    stands L set' (upd_set now c n a) /\ tidy set' /\ zlen set' <= zlen set + 2.
Proof.
  intros HL AC ST TI GS I ES NA.
  assert (CD : forall b, b <> 0 -> countb (of_ref b) (t_set s0) = countb (of_ref b) set - one_of b (findName set n)).
  { intros b _. rewrite ES. pose proof (count_delete (of_ref b) n set (gs_names _ GS)) as CD. rewrite (find_delete n set). destruct (flowDelete set n) as [g l']. cbn [fst snd] in *. unfold one_of. destruct g; lia. }
  rewrite (set_runs L c n a AC NA). unfold upd_set. destruct (Z.eqb_spec (c_udpencap c) 0) as [U0|U0].
  - destruct (main_calm L s0 set now c n a HL AC ST TI GS I CD NA) as (set' & A & B & C & D & E). exists set'. repeat (split; [assumption|]). lia.
  - destruct (comp_calm L set now c n HL AC U0 ST TI GS) as (set1 & D1 & G1 & S1 & T1 & Z1 & F1 & C1).
    destruct (main_calm L s0 set1 _ c n a HL AC S1 T1 G1 I) as (set' & A & B & C & D & E); [|exact NA|].
    { intros b NB. rewrite (C1 b NB), F1. apply CD. exact NB. }
    exists set'. split; [|repeat (split; [assumption|]); lia]. unfold define at 1.
    rewrite (run_act _ _ (set_flows s0 set) [] (set_flows s0 set1) (define L (cmdArgs c n a) (Ret (Reply "OK")))); [rewrite A; reflexivity|]. cbn [t_set set_flows]. rewrite D1. reflexivity.
Qed.

(** ** Commands *)
Definition distinct (s : state) : Prop := forall a b o o', deref s a = Some o -> deref s b = Some o' -> lb_target o = lb_target o' -> a = b.
Record calm (L : libc) (s : state) (now : chars -> option fargs) : Prop := mkCalm {
  cm_inv : inv s []; cm_stands : stands L (t_set s) now; cm_distinct : distinct s; cm_tidy : tidy (t_set s) }.

(** The object that flows with target t get, and its region *)
Definition there (s : state) (t : chars) (a g : Z) : Prop := exists o, deref s a = Some o /\ lb_target o = t /\ lb_region o = g.
Definition absent (s : state) (t : chars) : Prop := forall a g, ~ there s t a g.
Definition gets (s : state) (t : chars) (a g : Z) : Prop :=
  there s t a g \/ absent s t /\ t_shm s t = Some g /\ a = zlen (t_objs s) + 1.

Lemma deref_len s a o : deref s a = Some o -> 1 <= a <= zlen (t_objs s).
Proof. intros D. apply live_range. exists o. auto. Qed.
Lemma distinct_kept s s' : distinct s -> kept s s' -> zlen (t_objs s') = zlen (t_objs s) -> distinct s'.
Proof.
  intros D K Z a b o o' A B T. pose proof (deref_len _ _ _ A). pose proof (deref_len _ _ _ B).
  destruct (K a o A) as (oa & A1 & A2 & _); [lia|]. destruct (K b o' B) as (ob & B1 & B2 & _); [lia|]. apply (D a b oa ob); congruence.
Qed.
Lemma distinct_new s s' t g : distinct s -> kept s s' -> absent s t -> there s' t (zlen (t_objs s) + 1) g -> zlen (t_objs s') = zlen (t_objs s) + 1 -> distinct s'.
Proof.
  intros D K AB (x & X1 & X2 & X3) Z a b o o' A B T. pose proof (deref_len _ _ _ A). pose proof (deref_len _ _ _ B).
  assert (C : forall c y, deref s' c = Some y -> lb_target y = t -> 1 <= c <= zlen (t_objs s) + 1 -> c = zlen (t_objs s) + 1).
  { intros c y Y1 Y2 Y3. destruct (Z.eq_dec c (zlen (t_objs s) + 1)); auto. exfalso. destruct (K c y Y1) as (z & Z1 & Z2 & _); [lia|]. apply (AB c (lb_region z)). exists z. split; auto. split; congruence. }
  destruct (Z.eq_dec a (zlen (t_objs s) + 1)) as [->|NA].
  { assert (o = x) as -> by congruence. symmetry. apply (C b o' B); [congruence|lia]. }
  destruct (Z.eq_dec b (zlen (t_objs s) + 1)) as [->|NB].
  { assert (o' = x) as -> by congruence. apply (C a o A); [congruence|lia]. }
  destruct (K a o A) as (oa & A1 & A2 & _); [lia|]. destruct (K b o' B) as (ob & B1 & B2 & _); [lia|]. apply (D a b oa ob); congruence.
Qed.

Lemma absent_search s own t : inv s own -> absent s t -> not_listed s t.
Proof.
  intros I AB. apply Forall_forall. intros a H. apply (i_list _ _ I) in H. destruct H as ((o & D) & _). exists o. split; auto.
  intros T. apply (AB a (lb_region o)). exists o. auto.
Qed.
Lemma none_refs s own : inv s own -> forall a o, deref s a = Some o -> countb (isEnd a) own = 0 -> 0 < refs (t_set s) own a.
Proof.
  intros I a o D E. pose proof (refs_nonneg (t_set s) own a). destruct (Z.eq_dec (refs (t_set s) own a) 0) as [Z|Z]; [|lia].
  pose proof (i_end1 _ _ I a (ex_intro _ o D) Z). lia.
Qed.
Lemma lock_kept s a s' : lockRef s a = Some s' -> kept s s' /\ zlen (t_objs s') = zlen (t_objs s) /\ t_shm s' = t_shm s /\ t_mem s' = t_mem s /\
  forall o, deref s a = Some o -> exists o', deref s' a = Some o' /\ lb_target o' = lb_target o /\ lb_region o' = lb_region o.
Proof.
  unfold lockRef. destruct (deref s a) as [o|] eqn:D; [|discriminate]. intros H. set (o1 := mkLb _ _ _ _) in H. assert (s' = put s a o1) as -> by congruence.
  split; [apply (kept_put s a o); auto|]. split; [apply put_len|]. split; [auto|]. split; [auto|]. intros x X. assert (x = o) as -> by congruence. exists o1. split; auto.
  rewrite (deref_put s a o1 a o D), Z.eqb_refl. unfold o1. cbn [lb_freed]. rewrite (deref_freed s a o D). auto.
Qed.

Lemma find_step s t a g k : inv s [] -> distinct s -> gets s t a g -> zlen (t_set s) + 4 < 2147483648 ->
  exists s1, runp (findOrCreate (Some t) k) s = after [Took a] (runp (k a) s1) /\ inv s1 [Hold a] /\ t_set s1 = t_set s /\ kept s s1 /\ there s1 t a g /\
    zlen (t_objs s1) = (if a =? zlen (t_objs s) + 1 then zlen (t_objs s) + 1 else zlen (t_objs s)).
Proof.
  intros I D [(o & A & T & R)|(AB & SH & ->)] B.
  - pose proof (search_at s t (t_list s)) as SA. assert (LV : forall x, In x (t_list s) -> live s x) by (intros x H; apply (i_list _ _ I) in H; tauto). specialize (SA LV).
    assert (HI : In a (t_list s)) by (apply (i_list _ _ I); split; [exists o; auto|reflexivity]).
    assert (E : search s (t_list s) t = At a).
    { destruct (search s (t_list s) t) as [| |b] eqn:E; [contradiction| |].
      - exfalso. clear SA. induction (t_list s) as [|x l IH]; [destruct HI|]. cbn [search] in E. destruct (LV x (or_introl eq_refl)) as (ox & X). rewrite X in E.
        destruct (streq (lb_target ox) t) eqn:S; [discriminate|]. destruct HI as [->|HI].
        + assert (ox = o) as -> by congruence. rewrite T, streq_refl in S. discriminate.
        + apply IH; auto. intros y Y. apply LV. right. auto.
      - destruct SA as (_ & ob & B1 & B2). f_equal. apply (D b a ob o); congruence. }
    pose proof (none_refs s [] I a o A eq_refl) as P. pose proof (refs_le (t_set s) [] a) as LE. unfold zlen at 2 in LE. cbn [length] in LE.
    pose proof (deref_len _ _ _ A). destruct (inv_lock s [] a I P) as (s1 & L1 & I1 & S1); [lia|lia|].
    destruct (lock_kept _ _ _ L1) as (K & Z & _ & _ & X). destruct (X o A) as (o' & X1 & X2 & X3).
    exists s1. split; [apply run_act; rewrite E, L1; auto|]. split; [auto|]. split; [auto|]. split; [auto|]. split; [exists o'; repeat split; congruence|].
    destruct (Z.eqb_spec a (zlen (t_objs s) + 1)); lia.
  - pose proof (find_new s t g k (absent_search s [] t I AB) SH) as F. cbv zeta in F. set (s1 := set_list (set_objs s (t_objs s ++ [mkLb t 1 g false])) (zlen (t_objs s) + 1 :: t_list s)) in *.
    exists s1. split; [exact F|]. split; [apply (inv_create s [] t g I)|]. split; [reflexivity|]. split.
    { intros b o' X Y. unfold s1 in X. rewrite deref_app in X by reflexivity. destruct (Z.eqb_spec b (zlen (t_objs s) + 1)); [lia|]. eauto. }
    split; [exists (mkLb t 1 g false); split; [unfold s1; rewrite deref_app by reflexivity; rewrite Z.eqb_refl; auto|auto]|].
    rewrite Z.eqb_refl. unfold s1. cbn [t_objs set_list set_objs]. unfold zlen. rewrite app_length. cbn [length]. lia.
Qed.

(** What a request that is taken leads to *)
Record took_over (L : libc) (s s' : state) (now' : chars -> option fargs) (t : chars) (a g : Z) : Prop := mkTO {
  to_calm : calm L s' now'; to_kept : kept s s'; to_there : there s' t a g; to_len : zlen (t_set s') <= zlen (t_set s) + 2;
  to_objs : zlen (t_objs s') = (if a =? zlen (t_objs s) + 1 then zlen (t_objs s) + 1 else zlen (t_objs s)) }.

Lemma gets_range s t a g : gets s t a g -> 1 <= a <= zlen (t_objs s) + 1 /\ (a = zlen (t_objs s) + 1 -> absent s t).
Proof.
  intros [(o & A & _)|(AB & _ & ->)]; [apply deref_len in A; lia|]. pose proof (zlen_nonneg _ (t_objs s)). split; [lia|auto].
Qed.
Lemma set_names_delete set n : good_set set -> good_set (snd (flowDelete set n)).
Proof.
  intros GS. pose proof (delete_in n set (gs_names _ GS)) as D. destruct (flowDelete set n) as [r l]. cbn [snd]. destruct D as (D1 & D2 & _).
  constructor; auto; intros f F; apply D2 in F; destruct F as (F & _); [apply (gs_own _ GS f F)|apply (gs_comp _ GS f F)|apply (gs_udp _ GS f F)].
Qed.

(** The end of all ways through cmd_set *)
Lemma set_end L c n s now s0 set a g t : libc_ok L -> acceptable L c n -> calm L s now -> set = t_set s -> gets s t a g ->
  inv s0 [Hold a] -> t_set s0 = snd (flowDelete set n) -> kept s s0 -> there s0 t a g ->
  zlen (t_objs s0) = (if a =? zlen (t_objs s) + 1 then zlen (t_objs s) + 1 else zlen (t_objs s)) ->
  exists s', runp (setFlow L c a) (set_flows s0 set) = Some (Reply "OK", s', []) /\ took_over L s s' (upd_set now c n a) t a g.
Proof.
  intros HL AC [I ST DI TI] -> G I0 ES K TH Z. destruct (gets_range _ _ _ _ G) as (R1 & R2).
  destruct (define_calm L s0 (t_set s) now c n a HL AC ST TI (i_set _ _ I) I0 ES) as (set' & RUN & I' & ST' & TI' & LE); [lia|].
  exists (set_flows s0 set'). split; [exact RUN|].
  assert (K' : kept s (set_flows s0 set')) by (intros b o X Y; apply (K b o); auto).
  assert (TH' : there (set_flows s0 set') t a g) by exact TH.
  constructor; auto. constructor; auto.
  destruct (Z.eqb_spec a (zlen (t_objs s) + 1)) as [->|N].
  - apply (distinct_new s _ t g DI K'); auto.
  - apply (distinct_kept s); auto.
Qed.

Definition no_object (b : bool) : string := if b then "FAIL: Couldn't create new load-balancer" else "FAIL: Couldn't create load-balancer".

Lemma set_none s n : findName (t_set s) n = None -> inv s [] -> snd (flowDelete (t_set s) n) = t_set s.
Proof.
  intros F _. revert F. generalize (t_set s). induction l as [|h l IH]; cbn [findName flowDelete]; auto. destruct (named n h); [discriminate|].
  intros F. specialize (IH F). destruct (flowDelete l n). cbn [snd] in *. congruence.
Qed.
Lemma acceptable_own L c n : acceptable L c n -> c_name c = Some n /\ own_name n.
Proof. intros (A & B & _). auto. Qed.

(** The flow exists: where cmd_set goes *)
Definition change (L : libc) (c : flowcmd) (s : state) (lb : Z) (t : chars) (o : lbo) : prog :=
  if streq t (lb_target o) then setFlow L c lb
  else findOrCreate (Some t) (fun new => if new =? 0 then Ret (Reply "FAIL: Couldn't create new load-balancer") else release Retarget lb (setFlow L c new)).
Lemma set_existing L c n t s now f : acceptable L c n -> calm L s now -> c_target c = Some t -> findName (t_set s) n = Some f -> f_udpencap f = c_udpencap c -> zlen (t_set s) + 4 < 2147483648 ->
  exists o ev, deref s (f_ref f) = Some o /\ f_ref f <> 0 /\ runp (cmd_set L c) s = after ev (runp (change L c s (f_ref f) t o) s).
Proof.
  intros AC [I ST DI TI] TG FN U0 B. destruct (acceptable_own _ _ _ AC) as (CN & ON).
  pose proof (proj1 (find_iff _ _ _ (gs_names _ (i_set _ _ I))) FN) as (F1 & F2). rewrite <- F2 in ON.
  pose proof (gs_own _ (i_set _ _ I) f F1 ON) as NZ. pose proof (ref_flow (t_set s) [] f F1) as P. destruct (i_live _ _ I _ NZ P) as (o & D).
  pose proof (i_ref _ _ I _ _ D) as R. pose proof (refs_le (t_set s) [] (f_ref f)) as LE. change (zlen (@nil token)) with 0 in LE.
  exists o. set (K := release Quiet (f_ref f) (
                  if negb (f_udpencap f =? c_udpencap c) then Ret (Reply "FAIL: Alter udpencap not allowed")
                  else match c_target c with
                  | None => stop
                  | Some t =>
                      Act Quiet (fun s =>
                        match deref s (f_ref f) with
                        | None => BadUse
                        | Some o =>
                            if streq t (lb_target o) then Next [] s (setFlow L c (f_ref f))
                            else Next [] s (findOrCreate (Some t) (fun new =>
                              if new =? 0 then Ret (Reply "FAIL: Couldn't create new load-balancer")
                              else release Retarget (f_ref f) (setFlow L c new)))
                        end)
                  end)).
  destruct (lock_release Quiet s (f_ref f) o (Act Quiet (fun s =>
                        match deref s (f_ref f) with
                        | None => BadUse
                        | Some o =>
                            if streq t (lb_target o) then Next [] s (setFlow L c (f_ref f))
                            else Next [] s (findOrCreate (Some t) (fun new =>
                              if new =? 0 then Ret (Reply "FAIL: Couldn't create new load-balancer")
                              else release Retarget (f_ref f) (setFlow L c new)))
                        end)) D) as (s1 & L1 & S1 & RUN); [lia|].
  exists ([Took (f_ref f)] ++ [Gave (f_ref f)] ++ []). split; auto. split; auto.
  unfold cmd_set. cbv zeta. rewrite (run_act _ _ s [Took (f_ref f)] s1 K); [|rewrite CN, FN, L1; reflexivity].
  unfold K. rewrite U0, TG, Z.eqb_refl. cbn [negb]. rewrite RUN. rewrite (run_act _ _ s [] s (change L c s (f_ref f) t o)); [|rewrite D; unfold change; destruct (streq t (lb_target o)); auto].
  rewrite !after_after. reflexivity.
Qed.

Lemma set_alter L c n s now f : acceptable L c n -> calm L s now -> findName (t_set s) n = Some f -> f_udpencap f <> c_udpencap c -> zlen (t_set s) + 4 < 2147483648 ->
  exists ev, runp (cmd_set L c) s = Some (Reply "FAIL: Alter udpencap not allowed", s, ev).
Proof.
  intros AC [I ST DI TI] FN U0 B. destruct (acceptable_own _ _ _ AC) as (CN & ON).
  pose proof (proj1 (find_iff _ _ _ (gs_names _ (i_set _ _ I))) FN) as (F1 & F2). rewrite <- F2 in ON.
  pose proof (gs_own _ (i_set _ _ I) f F1 ON) as NZ. pose proof (ref_flow (t_set s) [] f F1) as P. destruct (i_live _ _ I _ NZ P) as (o & D).
  pose proof (i_ref _ _ I _ _ D) as R. pose proof (refs_le (t_set s) [] (f_ref f)) as LE. change (zlen (@nil token)) with 0 in LE.
  destruct (lock_release Quiet s (f_ref f) o (Ret (Reply "FAIL: Alter udpencap not allowed")) D) as (s1 & L1 & S1 & RUN); [lia|].
  eexists. unfold cmd_set. cbv zeta. rewrite (run_act _ _ s [Took (f_ref f)] s1 (release Quiet (f_ref f) (Ret (Reply "FAIL: Alter udpencap not allowed")))).
  - rewrite RUN. reflexivity.
  - rewrite CN, FN, L1. replace (f_udpencap f =? c_udpencap c) with false by lia. reflexivity.
Qed.

Lemma set_calm L c n t s now a g : libc_ok L -> acceptable L c n -> calm L s now -> c_target c = Some t -> (forall f, findName (t_set s) n = Some f -> f_udpencap f = c_udpencap c) -> zlen (t_set s) + 4 < 2147483648 -> gets s t a g ->
  exists s' ev, runp (cmd_set L c) s = Some (Reply "OK", s', ev) /\ took_over L s s' (upd_set now c n a) t a g.
Proof.
  intros HL AC CM TG SU B G. destruct (acceptable_own _ _ _ AC) as (CN & CU). pose proof CM as [I ST DI TI]. pose proof (i_set _ _ I) as GS.
  destruct (gets_range _ _ _ _ G) as (R1 & R2). assert (NA : a <> 0) by lia.
  destruct (findName (t_set s) n) as [f|] eqn:FN.
  - destruct (set_existing L c n t s now f AC CM TG FN (SU f eq_refl) B) as (o & ev & D & NZ & RUN). unfold change in RUN.
    pose proof (proj1 (find_iff _ _ _ (gs_names _ GS)) FN) as (F1 & F2).
    pose proof (find_delete n (t_set s)) as FD. rewrite FN in FD.
    pose proof (fun p => count_delete p n (t_set s) (gs_names _ GS)) as CD.
    destruct (flowDelete (t_set s) n) as [rd l0] eqn:EF. cbn [fst] in FD. subst rd.
    assert (GS0 : good_set l0) by (pose proof (set_names_delete _ n GS) as X; rewrite EF in X; exact X).
    destruct (streq t (lb_target o)) eqn:S.
    + apply streq_eq in S. assert (a = f_ref f) as ->.
      { destruct G as [(x & X1 & X2 & _)|(AB & _)]; [apply (DI a (f_ref f) x o); congruence|exfalso; apply (AB (f_ref f) (lb_region o)); exists o; auto]. }
      assert (I0 : inv (set_flows s l0) [Hold (f_ref f)]).
      { apply (inv_set s [] l0 _ I GS0); intros b; [|reflexivity|reflexivity]. intros _. rewrite refs_hold. unfold refs. rewrite countb_nil.
        rewrite (CD (fun f => f_ref f =? b)). lia. }
      destruct (set_end L c n s now (set_flows s l0) (t_set s) (f_ref f) g t HL AC CM eq_refl G I0) as (s' & RS & TO).
      { cbn [t_set set_flows]. rewrite EF. auto. }
      { apply kept_objs. auto. }
      { destruct G as [G|(AB & _)]; [exact G|]. exfalso. apply (AB (f_ref f) (lb_region o)). exists o. auto. }
      { pose proof (deref_len _ _ _ D). destruct (Z.eqb_spec (f_ref f) (zlen (t_objs s) + 1)); [lia|]. auto. }
      change (set_flows (set_flows s l0) (t_set s)) with (set_flows s (t_set s)) in RS. rewrite set_flows_same in RS. rewrite RS in RUN. eauto.
    + destruct (find_step s t a g (fun new => if new =? 0 then Ret (Reply "FAIL: Couldn't create new load-balancer") else release Retarget (f_ref f) (setFlow L c new)) I DI G B)
        as (s1 & RF & I1 & S1 & K1 & TH1 & Z1).
      assert (NE : f_ref f <> a).
      { intros E0. rewrite E0 in D. apply streq_neq in S. destruct TH1 as (x & X1 & X2 & X3). pose proof (deref_len _ _ _ D). destruct (K1 a x X1) as (y & Y1 & Y2 & Y3); [lia|]. congruence. }
      assert (I0 : inv (set_flows s1 l0) [Hold (f_ref f); Hold a]).
      { apply (inv_set s1 [Hold a] l0 _ I1 GS0); intros b; [|reflexivity|reflexivity]. intros _. rewrite !refs_hold. unfold refs. rewrite countb_nil, S1.
        rewrite (CD (fun f => f_ref f =? b)). lia. }
      pose proof (CD (fun f => true)) as CL. rewrite <- !zlen_countb in CL.
      destruct (release_run Retarget _ _ _ I0 NZ) as (s2 & ev2 & RR & I2 & S2 & K2 & Z2 & _).
      { pose proof (refs_le l0 [Hold (f_ref f); Hold a] (f_ref f)) as X. cbn [t_set set_flows]. change (zlen [Hold (f_ref f); Hold a]) with 2 in X. lia. }
      cbn [t_set set_flows t_objs] in S2, Z2.
      assert (LE1 : zlen (t_objs s) <= zlen (t_objs s1)) by (rewrite Z1; destruct (a =? zlen (t_objs s) + 1); lia).
      assert (TH2 : there s2 t a g).
      { destruct (i_live _ _ I2 a NA) as (x & X); [rewrite refs_hold, Z.eqb_refl; pose proof (refs_nonneg (t_set s2) [] a); lia|]. pose proof (deref_len _ _ _ X).
        destruct (K2 a x X) as (y & Y1 & Y2 & Y3); [cbn [t_objs set_flows]; lia|]. destruct TH1 as (z & W1 & W2 & W3). change (deref (set_flows s1 l0) a) with (deref s1 a) in Y1.
        exists x. split; auto. split; congruence. }
      destruct (set_end L c n s now s2 (t_set s) a g t HL AC CM eq_refl G I2) as (s' & RS & TO); auto.
      { rewrite S2, EF. auto. }
      { apply (kept_trans s s1); auto. }
      { lia. }
      rewrite RF in RUN. rewrite (proj2 (Z.eqb_neq a 0) NA) in RUN. specialize (RR (t_set s) (setFlow L c a)).
      change (set_flows (set_flows s1 l0) (t_set s)) with (set_flows s1 (t_set s)) in RR. rewrite <- S1 in RR at 1. rewrite set_flows_same in RR. rewrite RR, RS in RUN.
      cbn [after] in RUN. eauto.
  - destruct (find_step s t a g (setFlow L c) I DI G B) as (s1 & RF & I1 & S1 & K1 & TH1 & Z1).
    destruct (set_end L c n s now s1 (t_set s) a g t HL AC CM eq_refl G I1) as (s' & RS & TO); auto.
    { rewrite (set_none s n FN I). auto. }
    rewrite <- S1 in RS at 1. rewrite set_flows_same in RS.
    exists s', ([] ++ [Took a] ++ []). split; auto. unfold cmd_set. cbv zeta. rewrite (run_act _ _ s [] s (findOrCreate (Some t) (setFlow L c))); [|rewrite CN, FN, TG; auto].
    rewrite RF, RS. reflexivity.
Qed.

Lemma set_calm_none L c n t s now : acceptable L c n -> calm L s now -> c_target c = Some t -> (forall f, findName (t_set s) n = Some f -> f_udpencap f = c_udpencap c) -> zlen (t_set s) + 4 < 2147483648 -> absent s t -> t_shm s t = None ->
  exists ev, runp (cmd_set L c) s = Some (Reply (no_object (match findName (t_set s) n with None => false | Some _ => true end)), s, ev).
Proof.
  intros AC CM TG SU B AB SH. destruct (acceptable_own _ _ _ AC) as (CN & CU). pose proof CM as [I ST DI TI].
  assert (U : unavailable s (Some t)) by (split; [apply (absent_search s [] t I AB)|exact SH]).
  destruct (findName (t_set s) n) as [f|] eqn:FN.
  - destruct (set_existing L c n t s now f AC CM TG FN (SU f eq_refl) B) as (o & ev & D & NZ & RUN). unfold change in RUN.
    destruct (streq t (lb_target o)) eqn:S; [apply streq_eq in S; exfalso; apply (AB (f_ref f) (lb_region o)); exists o; auto|].
    rewrite (find_unavailable s (Some t) _ U) in RUN. cbn [Z.eqb runp after] in RUN. eauto.
  - eexists. unfold cmd_set. cbv zeta. rewrite (run_act _ _ s [] s (findOrCreate (Some t) (setFlow L c))); [|rewrite CN, FN, TG; auto].
    rewrite (find_unavailable s (Some t) _ U). reflexivity.
Qed.

Lemma delete_calm L c n s now : libc_ok L -> calm L s now -> c_name c = Some n -> own_name n \/ findName (t_set s) n = None -> zlen (t_set s) + 4 < 2147483648 ->
  exists s' ev, runp (cmd_delete c) s = Some (Reply "OK", s', ev) /\ calm L s' (upd_del now n (match findName (t_set s) n with None => 0 | Some f => f_udpencap f end)) /\
    kept s s' /\ zlen (t_objs s') = zlen (t_objs s) /\ zlen (t_set s') <= zlen (t_set s).
Proof.
  intros HL [I ST DI TI] CN OWN B. pose proof (i_set _ _ I) as GS. unfold cmd_delete. rewrite CN.
  pose proof (find_delete n (t_set s)) as FD. pose proof (fun p => count_delete p n (t_set s) (gs_names _ GS)) as CD. pose proof (set_names_delete _ n GS) as GS0.
  pose proof (delete_in n (t_set s) (gs_names _ GS)) as DN.
  destruct (flowDelete (t_set s) n) as [rd l0] eqn:EF. cbn [fst snd] in *. destruct DN as (D1 & D2 & D3 & _). rewrite FD in *.
  assert (ST0 : stands L l0 (upd_now now n None)).
  { pose proof (stands_run L (t_set s) now [Delete n] l0 [Deleted (match rd with None => None | Some f => Some (f_ref f, f_udpencap f) end)] ST) as X. apply X. cbn [run]. rewrite EF. reflexivity. }
  assert (TI0 : tidy l0) by (destruct TI as (T1 & T2); split; intros f F; apply D2 in F; destruct F; auto).
  pose proof (CD (fun f => true)) as CL. rewrite <- !zlen_countb in CL.
  set (K ref ue := release Quiet ref (if 0 <? ue then if 1021 <? zlen n then stop
            else Act Quiet (fun s => Next [] (set_flows s (snd (flowDelete (t_set s) (35 :: n)))) (Ret (Reply "OK"))) else Ret (Reply "OK"))).
  destruct rd as [f|].
  - destruct D3 as (F1 & F2). assert (ON : own_name (f_name f)) by (rewrite F2; destruct OWN; [assumption|discriminate]). pose proof (gs_own _ GS f F1 ON) as NZ. pose proof (proj2 TI f F1) as UP.
    assert (I0 : inv (set_flows s l0) [Hold (f_ref f)]).
    { apply (inv_set s [] l0 _ I GS0); intros b; [|reflexivity|reflexivity]. intros _. rewrite refs_hold. unfold refs. rewrite countb_nil. rewrite (CD (fun f => f_ref f =? b)). lia. }
    destruct (release_run Quiet _ _ _ I0 NZ) as (s2 & ev2 & RR & I2 & S2 & K2 & Z2 & _).
    { pose proof (refs_le l0 [Hold (f_ref f)] (f_ref f)) as X. cbn [t_set set_flows]. change (zlen [Hold (f_ref f)]) with 1 in X. lia. }
    cbn [t_set set_flows t_objs] in S2, Z2. unfold upd_del. destruct (Z.eqb_spec (f_udpencap f) 0) as [U0|U0].
    + exists s2, ([] ++ ev2 ++ []). split.
      { rewrite (run_act _ _ s [] (set_flows s l0) (K (f_ref f) (f_udpencap f))); [|rewrite EF; reflexivity]. unfold K. rewrite U0. change (0 <? 0) with false. cbv iota.
        specialize (RR l0 (Ret (Reply "OK"))). change (set_flows (set_flows s l0) l0) with (set_flows s l0) in RR. rewrite RR. rewrite <- S2, set_flows_same. reflexivity. }
      split; [constructor; auto; rewrite ?S2; auto|].
      * apply (distinct_kept s); auto.
      * split; [intros b o X Y; apply (K2 b o X); auto|]. split; auto. rewrite S2. lia.
    + pose proof (delete_in (35 :: n) l0 (gs_names _ GS0)) as DM. pose proof (fun p => count_delete p (35 :: n) l0 (gs_names _ GS0)) as CM. pose proof (set_names_delete _ (35 :: n) GS0) as GS1.
      assert (ST1 : stands L (snd (flowDelete l0 (35 :: n))) (upd_now (upd_now now n None) (35 :: n) None)).
      { pose proof (stands_run L l0 _ [Delete (35 :: n)] (snd (flowDelete l0 (35 :: n))) [Deleted (match fst (flowDelete l0 (35 :: n)) with None => None | Some f => Some (f_ref f, f_udpencap f) end)] ST0) as X.
        apply X. cbn [run]. destruct (flowDelete l0 (35 :: n)). reflexivity. }
      destruct (flowDelete l0 (35 :: n)) as [rd1 l1] eqn:EF1. cbn [fst snd] in *. destruct DM as (E1 & E2 & E3 & _).
      assert (TI1 : tidy l1) by (destruct TI0 as (T1 & T2); split; intros x F; apply E2 in F; destruct F; auto).
      pose proof (CM (fun f => true)) as CL1. rewrite <- !zlen_countb in CL1.
      assert (I3 : inv (set_flows s2 l1) []).
      { apply (inv_set s2 [] l1 _ I2 GS1); intros b; [|reflexivity|reflexivity]. intros NB. unfold refs. rewrite countb_nil, S2, (CM (fun f => f_ref f =? b)). destruct rd1 as [x|]; [|lia].
        destruct E3 as (X1 & X2). rewrite (gs_comp _ GS0 x X1) by (rewrite X2; apply not_own). replace (0 =? b) with false by lia. lia. }
      exists (set_flows s2 l1), ([] ++ ev2 ++ []). split.
      { rewrite (run_act _ _ s [] (set_flows s l0) (K (f_ref f) (f_udpencap f))); [|rewrite EF; reflexivity]. unfold K. replace (0 <? f_udpencap f) with true by lia. cbv iota.
        pose proof (proj2 (proj1 TI f F1)) as ZN. rewrite F2 in ZN. replace (1021 <? zlen n) with false by lia.
        specialize (RR l0 (Act Quiet (fun s => Next [] (set_flows s (snd (flowDelete (t_set s) (35 :: n)))) (Ret (Reply "OK"))))). change (set_flows (set_flows s l0) l0) with (set_flows s l0) in RR. rewrite RR. rewrite <- S2, set_flows_same.
        rewrite (run_act _ _ s2 [] (set_flows s2 l1) (Ret (Reply "OK"))); [reflexivity|]. rewrite S2, EF1. reflexivity. }
      split; [constructor; auto|].
      * apply (distinct_kept s); auto.
      * split; [intros b o X Y; apply (K2 b o X); auto|]. split; auto. cbn [t_set set_flows]. destruct rd1; lia.
  - assert (L0 : l0 = t_set s) by (pose proof (set_none s n FD I) as X; rewrite EF in X; exact X). subst l0.
    exists s, []. split; [|split; [constructor; auto|split; [apply kept_refl|split; [auto|lia]]]].
    rewrite (run_act _ _ s [] s (K 0 0)); [reflexivity|]. rewrite EF, set_flows_same. reflexivity.
Qed.
