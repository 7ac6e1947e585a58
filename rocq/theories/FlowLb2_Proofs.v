(** Every step of the commands and of the packet handler keeps the references
    in order (C43). *)
From Coq Require Import String Permutation Sorted.
From Verif Require Import Base Lists Cstr_Model Util_Spec Util_Proofs IpKey_Model Maglev_Model Rangeset_Model Rangeset_Spec Rangeset_Proofs
  Rangeset2_Proofs Match_Spec Flow_Model Flow_Spec Flow_Proofs Flow2_Proofs Flow3_Proofs Remote_Model FlowLb_Model FlowLb_Spec FlowLb_Proofs Requests_Spec.
From Verif Require Frag_Model.

Definition okl (l : label) (s : state) : Prop :=
  match l with
  | Find t => forall a o, In a (t_list s) -> deref s a = Some o -> lb_target o = t -> lb_ref o <> 0
  | Retarget => False
  | Quiet => True
  end.

(** Flows from requests that can be survived (C64) *)
Definition sane (lo : Z) (set : list frec) : Prop :=
  forall f, In f set -> close_priority lo (f_priority f) /\ zlen (f_name f) <= 1001.

Section Survive.
(** Q: the flow thread should survive *)
Variables (Q : Prop) (lo : Z).
(** [own] is what the thread holds; only the flow thread changes the flows. *)
Fixpoint wf (fl : bool) (set : list frec) (own : list token) (p : prog) : Prop :=
  match p with
  | Ret _ => own = []
  | Act l f =>
      (fl = false -> l = Quiet) /\
      forall s rest, inv s (own ++ rest) -> (fl = true -> t_set s = set) -> okl l s ->
        zlen rest + zlen (t_set s) + 2 < 2147483648 -> (fl = true -> Q -> sane lo set) ->
        match f s with
        | Next ev s' p' => exists own', (length own' <= 1)%nat /\ inv s' (own' ++ rest) /\
            (fl = false -> t_set s' = t_set s /\
               forall a, countb (isHold a) own' = countb (isHold a) own + count (took a) ev - count (gave a) ev) /\
            (fl = true -> Q -> sane lo (t_set s')) /\
            wf fl (t_set s') own' p'
        | BadUse => False
        | Stop => fl = true -> ~ Q
        end
  end.

Lemma wf_stop set own : wf false set own stop.
Proof. cbn. split; auto. discriminate. Qed.
Lemma wf_stop_flow set own : ~ Q -> wf true set own stop.
Proof. cbn. split; auto; discriminate. Qed.

Lemma wf_packet_set set set' own p : wf false set own p -> wf false set' own p.
Proof.
  destruct p as [r|l f]; cbn [wf]; auto. intros (QU & H). split; auto. intros s rest I _ O B _.
  assert (X : false = true -> t_set s = set) by discriminate. assert (Y : false = true -> Q -> sane lo set) by discriminate. specialize (H s rest I X O B Y). destruct (f s) as [ev s' q| |]; [|exact H|discriminate].
  destruct H as (o & H1 & H2 & H3 & _ & H4). exists o. split; [exact H1|]. split; [exact H2|]. split; [exact H3|]. split; [discriminate|exact H4].
Qed.

(** ** Release *)
Lemma wf_release fl set a k : a <> 0 -> (forall set', (fl = true -> set' = set) -> wf fl set' [] k) ->
  wf fl set [Hold a] (release Quiet a k).
Proof.
  intros N K. unfold release. rewrite (proj2 (Z.eqb_neq a 0) N). cbn [wf]. split; auto.
  intros s rest I SE _ B SN. cbn [app] in I.
  pose proof (refs_le (t_set s) (Hold a :: rest) a) as RL. unfold zlen in *. cbn [length] in RL.
  destruct (inv_gave s rest a I N) as (o & -> & R0 & I1 & I2); [lia|]. cbv zeta in *.
  set (r := s32 (lb_ref o - 1)) in *. set (s1 := put s a _) in *.
  replace (r <? 0) with false by lia. destruct (Z.eqb_spec r 0) as [E|E].
  - exists [Dying a]. split; [cbn; lia|]. split; [apply I1; auto|]. split.
    { intros _. split; auto. intros b. unfold count. change (countb (isHold b) [Dying a]) with 0. change (countb (isHold b) [Hold a]) with (countb (isHold b) [Hold a]).
      rewrite countb_cons, countb_nil. cbn [isHold]. cbn [filter took gave zlen]. destruct (a =? b); reflexivity. }
    split; [intros F q; unfold s1; cbn [t_set put set_objs]; rewrite (SE F); auto|].
    split; auto. intros s2 rest2 J SE2 _ B2 SN2. cbn [app] in J. destruct (inv_unlink s2 rest2 a J) as ((o2 & ->) & l' & -> & J2).
    exists [Gone a]. split; [cbn; lia|]. split; [exact J2|]. split; [intros _; split; auto|]. split; [intros F q; cbn [t_set set_list]; rewrite (SE2 F); auto|].
    split; auto. intros s3 rest3 J3 SE3 _ B3 SN3. cbn [app] in J3. destruct (inv_free s3 rest3 a J3) as (o3 & -> & J4).
    exists []. split; [cbn; lia|]. split; [exact J4|]. split; [intros _; split; auto|]. split; [intros F q; cbn [t_set put set_objs]; rewrite (SE3 F); auto|]. apply K. intros F.
    cbn [t_set put set_objs]. rewrite SE3 by auto. cbn [t_set set_list]. rewrite SE2 by auto. unfold s1. cbn [t_set put set_objs]. auto.
  - exists []. split; [cbn; lia|]. split; [apply I2; auto|]. split.
    { intros _. split; auto. intros b. unfold count. rewrite countb_cons, !countb_nil. cbn [isHold filter took gave]. destruct (a =? b); reflexivity. }
    split; [intros F q; unfold s1; cbn [t_set put set_objs]; rewrite (SE F); auto|].
    apply K. intros F. unfold s1. cbn [t_set put set_objs]. auto.
Qed.

(** ** Finding the object of a target *)
Lemma search_at s t : forall l, (forall x, In x l -> live s x) ->
  match search s l t with
  | Broken => False
  | Absent => True
  | At a => In a l /\ exists o, deref s a = Some o /\ lb_target o = t
  end.
Proof.
  induction l as [|x l IH]; intros H; cbn [search]; auto. destruct (H x (or_introl eq_refl)) as (o & E). rewrite E.
  destruct (streq (lb_target o) t) eqn:ES.
  - apply streq_eq in ES. split; [left; auto|]. eauto.
  - specialize (IH (fun y K => H y (or_intror K))). destruct (search s l t); auto. destruct IH. split; auto. right; auto.
Qed.
Lemma wf_find set t k : (forall a, wf true set (if a =? 0 then [] else [Hold a]) (k a)) ->
  wf true set [] (findOrCreate t k).
Proof.
  intros K. unfold findOrCreate. destruct t as [t|]; [|apply (K 0)]. cbn [wf]. split; [discriminate|].
  intros s rest I SE O B SN. cbn [app] in I. pose proof (search_at s t (t_list s)) as SA.
  assert (LV : forall x, In x (t_list s) -> live s x) by (intros x H; apply (i_list _ _ I) in H; tauto). specialize (SA LV).
  destruct (search s (t_list s) t) as [| |a]; [contradiction| |].
  - destruct (t_shm s t) as [r|].
    + exists [Hold (zlen (t_objs s) + 1)]. split; [cbn; lia|]. split; [apply (inv_create s rest t r I)|]. split; [discriminate|]. split; [intros F q; cbn [t_set set_list set_objs]; rewrite (SE F); auto|].
      cbn [t_set set_list set_objs]. rewrite SE by auto. specialize (K (zlen (t_objs s) + 1)).
      pose proof (zlen_nonneg _ (t_objs s)). destruct (Z.eqb_spec (zlen (t_objs s) + 1) 0); [lia|]. auto.
    + exists []. split; [cbn; lia|]. split; auto. split; [discriminate|]. split; [intros F q; rewrite (SE F); auto|]. rewrite SE by auto. apply (K 0).
  - destruct SA as (HI & o & HD & HT). assert (N : a <> 0) by (intros ->; apply LV, live_range in HI; lia).
    pose proof (O a o HI HD HT) as NZ. rewrite (i_ref _ _ I a o HD) in NZ. pose proof (refs_nonneg (t_set s) rest a).
    pose proof (refs_le (t_set s) rest a).
    destruct (inv_lock s rest a I) as (s' & -> & I' & ES); auto; try lia.
    exists [Hold a]. split; [cbn; lia|]. split; [exact I'|]. split; [discriminate|]. split; [intros F q; rewrite ES, (SE F); auto|]. rewrite ES, SE by auto.
    specialize (K a). rewrite (proj2 (Z.eqb_neq a 0) N) in K. auto.
Qed.

(** ** The flow set *)
Lemma count_replace p f l l' : NoDup (names l) -> replaceFlow f l = Some l' ->
  exists g, In g l /\ f_name g = f_name f /\
    countb p l' = countb p l - (if p g then 1 else 0) + (if p f then 1 else 0).
Proof.
  revert l'. induction l as [|h l IH]; intros l' ND H; cbn [replaceFlow] in H; [discriminate|].
  cbn [names map] in ND. apply NoDup_cons_iff in ND. destruct ND as (N1 & N2). unfold named in H.
  destruct (streq (f_name h) (f_name f)) eqn:E.
  - apply streq_eq in E. assert (l' = f :: l) as -> by congruence. exists h. split; [left; auto|]. split; auto.
    rewrite !countb_cons. lia.
  - destruct (replaceFlow f l) as [r|]; [|discriminate]. assert (l' = h :: r) as -> by congruence.
    destruct (IH r N2 eq_refl) as (g & G1 & G2 & G3). exists g. split; [right; auto|]. split; auto. rewrite !countb_cons, G3. lia.
Qed.
Lemma unique_name l f g : NoDup (names l) -> In f l -> In g l -> f_name f = f_name g -> f = g.
Proof.
  induction l as [|h l IH]; intros ND F G E; [destruct F|]. cbn [names map] in ND. apply NoDup_cons_iff in ND. destruct ND as (N1 & N2).
  destruct F as [->|F], G as [->|G]; auto.
  - exfalso. apply N1. rewrite E. apply in_map. auto.
  - exfalso. apply N1. rewrite <- E. apply in_map. auto.
Qed.
Lemma count_insert p f l : NoDup (names l) -> countb p (insertFlow f l) =
  countb p l + (if p f then 1 else 0) - match findName l (f_name f) with None => 0 | Some g => if p g then 1 else 0 end.
Proof.
  intros ND. pose proof (find_name l (f_name f) ND) as FN. unfold insertFlow. destruct (replaceFlow f l) as [l'|] eqn:E.
  - destruct (count_replace p f l l' ND E) as (g & G1 & G2 & ->). destruct (findName l (f_name f)) as [h|].
    + destruct FN as (H1 & H2). assert (h = g) as -> by (apply (unique_name l); auto; congruence). lia.
    + exfalso. apply FN. rewrite <- G2. apply in_map. auto.
  - apply replace_none in E. destruct (findName l (f_name f)) as [h|].
    + destruct FN as (H1 & H2). exfalso. apply E. rewrite <- H2. apply in_map. auto.
    + rewrite countb_app, countb_cons, countb_nil. lia.
Qed.
Lemma count_delete p n l : NoDup (names l) -> let (r, l') := flowDelete l n in
  countb p l' = countb p l - match r with None => 0 | Some g => if p g then 1 else 0 end.
Proof.
  intros _. induction l as [|h l IH]; cbn [flowDelete]; [rewrite countb_nil; lia|]. destruct (named n h).
  - rewrite countb_cons. lia.
  - destruct (flowDelete l n) as [r l']. rewrite !countb_cons, IH. lia.
Qed.
Lemma find_iff l n f : NoDup (names l) -> (findName l n = Some f <-> In f l /\ f_name f = n).
Proof.
  intros ND. pose proof (find_name l n ND) as FN. destruct (findName l n) as [g|].
  - split; [intros E; assert (f = g) as -> by congruence; auto|]. intros (H1 & H2). f_equal. destruct FN as (F1 & F2).
    apply (unique_name l); auto. congruence.
  - split; [discriminate|]. intros (H1 & <-). exfalso. apply FN. apply in_map. auto.
Qed.
Lemma find_same l l' n : NoDup (names l) -> NoDup (names l') ->
  (forall f, f_name f = n -> (In f l' <-> In f l)) -> findName l' n = findName l n.
Proof.
  intros N1 N2 H. destruct (findName l n) as [f|] eqn:E.
  - apply find_iff in E; auto. apply find_iff; auto. destruct E as (E1 & E2). split; auto. apply H; auto.
  - destruct (findName l' n) as [f|] eqn:E'; auto. apply find_iff in E'; auto. destruct E' as (E1 & E2). apply H in E1; auto.
    assert (findName l n = Some f) by (apply find_iff; auto). congruence.
Qed.

(** What flowDefine leaves *)
Lemma define_set L set a r : libc_ok L -> NoDup (names set) -> means L a r ->
  match flowDefine L set a with
  | Ok (None, set') => exists f, makeFlow L a = Ok (inr f) /\ Flow_Proofs.agrees a r f /\ NoDup (names set') /\
      (forall g, In g set' <-> g = f \/ (In g set /\ f_name g <> a_name a)) /\
      forall p, countb p set' = countb p set + (if p f then 1 else 0) -
         match findName set (a_name a) with None => 0 | Some g => if p g then 1 else 0 end
  | Ok (Some _, _) => False
  | _ => True
  end.
Proof.
  intros HL ND HM. destruct (makeFlow_ok L a r HL HM) as (f & E & A). unfold flowDefine. rewrite E. cbn [obind].
  destruct (sortFlows L (insertFlow f set)) as [s| | |] eqn:ES; cbn [obind]; auto. exists f. split; auto. split; auto.
  unfold sortFlows in ES. destruct (comparable _); [|discriminate]. assert (s = sort_flows L (insertFlow f set)) as -> by congruence.
  destruct HL as (_ & _ & HS). destruct (HS (insertFlow f set)) as (P & _). destruct (insert_in f set ND) as (I1 & I2).
  assert (EN : f_name f = a_name a) by apply A. rewrite EN in I2.
  split; [apply (Perm_names _ _ P); auto|]. split.
  - intros g. rewrite <- I2. split; [apply Permutation_in, Permutation_sym, P|apply Permutation_in, P].
  - intros p. rewrite <- (countb_perm p _ _ P), count_insert by auto. rewrite EN. auto.
Qed.

Lemma dec_aux_len fuel : forall v acc, (length (dec_aux fuel v acc) <= fuel + length acc)%nat.
Proof.
  induction fuel as [|fuel IH]; intros v acc; cbn [dec_aux]; [lia|].
  destruct (_ <? 10); cbn [length]; [lia|]. specialize (IH (v / 10) (48 + v mod 10 :: acc)). cbn [length] in IH. lia.
Qed.
Lemma port_text u : 0 < u < 65536 -> ports_text (dec u) [(u, u)].
Proof.
  intros U. assert (D : is_dec (dec u) u) by (apply dec_ok; unfold is_u32, UINT_MAX; lia). split; [|split].
  - unfold dec, zlen. pose proof (dec_aux_len 10 u []). cbn [length] in *. lia.
  - constructor; [|constructor]. unfold acceptable. cbn. lia.
  - exists [dec u]. split.
    + apply (pieces_last [44; 32] [] (dec u)); [intros c []|apply D|]. intros c H. destruct D as (_ & F & _).
      rewrite Forall_forall in F. apply F in H. cbn. lia.
    + constructor; [|constructor]. exists (dec u). split; auto.
Qed.
Lemma companion_means L c n r : means L (cmdArgs c n 0) r -> zlen n <= 1000 -> 0 < c_udpencap c < 65536 ->
  exists r', means L (udpArgs c n) r'.
Proof.
  intros (M1 & M2 & M3 & M4 & M5 & M6 & M7) N U. cbn [cmdArgs a_name a_dsts a_srcs] in *.
  exists (mkRule (Some [17]) (Some [(c_udpencap c, c_udpencap c)]) None (r_dsts r) (r_srcs r) None).
  split; [cbn [udpArgs a_name]; unfold zlen in *; cbn [length]; lia|].
  split; [|split; [|split; [|split; [|split]]]]; cbn [udpArgs a_protocols a_dports a_sports a_dsts a_srcs a_match
    r_protocols r_dports r_sports r_dsts r_srcs r_match given]; auto.
  - constructor; [|constructor]. exists (str "udp"). split; [|right; right; auto].
    unfold any_case. cbn. repeat constructor; left; reflexivity.
  - apply port_text. auto.
  - exact I.
  - exact I.
Qed.

(** Definitions with close priorities do not go wrong. *)
Lemma define_stops L set a r : libc_ok L -> NoDup (names set) -> means L a r -> sane lo set -> close_priority lo (a_priority a) ->
  exists x, flowDefine L set a = Ok x.
Proof.
  intros HL ND HM SN CP. destruct (makeFlow_ok L a r HL HM) as (f & E & A). unfold flowDefine. rewrite E. cbn [obind].
  destruct (insert_in f set ND) as (_ & J2). destruct (makeFlow_fields _ _ _ E) as (_ & FP & _).
  assert (X : forall g, In g (insertFlow f set) -> close_priority lo (f_priority g)).
  { intros g G. apply J2 in G. destruct G as [->|(G & _)]; [rewrite FP; auto|apply SN; auto]. }
  unfold sortFlows. rewrite comparable_ok; [cbn [obind]; eauto|]. intros g1 g2 G1 G2. apply X in G1, G2. unfold close_priority, is_int in *. lia.
Qed.
Lemma sane_define set set' f n : sane lo set -> (forall g, In g set' <-> g = f \/ (In g set /\ f_name g <> n)) -> close_priority lo (f_priority f) ->
  zlen (f_name f) <= 1001 -> sane lo set'.
Proof. intros SN IN CP N g G. apply IN in G. destruct G as [->|(G & _)]; auto. Qed.

(** ** Commands *)
Lemma not_own n : ~ own_name (35 :: n).
Proof. intros H. apply (H n). auto. Qed.
Lemma proto_sctp a r f p : Flow_Proofs.agrees a r f -> a_protocols a = Some [p] -> Flow_Spec.given (Forall2 proto_text) (a_protocols a) (r_protocols r) ->
  any_case p (str "sctp") -> match f_protocols f with None => true | Some l => existsb (Z.eqb 17) l end = false.
Proof.
  intros A E G C. destruct A as (_ & _ & _ & _ & A & _). specialize (A 17).
  destruct (match f_protocols f with None => true | Some l => existsb (Z.eqb 17) l end); auto. exfalso.
  destruct A as (A & _). specialize (A eq_refl). rewrite E in G. destruct (r_protocols r) as [l|]; [|exact G].
  cbn in G, A. inversion G as [|x y l1 l2 G1 G2]; subst. inversion G2; subst. destruct A as [->|[]].
  destruct G1 as (t & T1 & T2). assert (T : t = str "udp") by (destruct T2 as [(K & _)|[(K & _)|(_ & K)]]; [discriminate|discriminate|exact K]).
  subst t. apply lower_case in T1; [|cbn; repeat constructor; lia]. apply lower_case in C; [|cbn; repeat constructor; lia].
  rewrite T1 in C. discriminate.
Qed.

(** The flow gets the reference, or keeps it. *)
Definition owes (set : list frec) (n : chars) (lb : Z) (own : list token) : Prop :=
  match findName set n with None => own = [Hold lb] | Some f => f_ref f = lb /\ own = [] end.
Lemma wf_define_main L c n set lb own : libc_ok L -> (Q -> close_priority lo (c_priority c)) -> valid_request L c -> c_name c = Some n -> own_name n -> lb <> 0 ->
  owes set n lb own -> wf true set own (define L (cmdArgs c n lb) (Ret (Reply "OK"))).
Proof.
  intros HL CP (n' & E & ZN & (r & HM) & U & PS) EN ON N OW. assert (n' = n) as -> by congruence.
  unfold define. cbn [wf]. split; [discriminate|]. intros s rest I SE _ B SN.
  specialize (SE eq_refl). specialize (SN eq_refl). pose proof (i_set _ _ I) as GS.
  assert (HM' : means L (cmdArgs c n lb) r) by exact HM.
  pose proof (define_set L (t_set s) (cmdArgs c n lb) r HL (gs_names _ GS) HM') as D.
  assert (DS : Q -> exists x, flowDefine L (t_set s) (cmdArgs c n lb) = Ok x).
  { intros q. specialize (SN q). specialize (CP q). rewrite SE. eapply define_stops; eauto. rewrite <- SE. apply (gs_names _ GS). }
  destruct (flowDefine L (t_set s) (cmdArgs c n lb)) as [[[e|] set']| | |]; try (intros _ q; destruct (DS q); discriminate); [contradiction|]. clear DS.
  destruct D as (f & _ & A & ND & IN & CN). cbn [cmdArgs a_name] in IN, CN.
  assert (FN : f_name f = n) by apply A. assert (FR : f_ref f = lb) by apply A. assert (FU : f_udpencap f = c_udpencap c) by apply A.
  assert (GS' : good_set set').
  { constructor; auto.
    - intros g G. apply IN in G. destruct G as [->|(G & _)]; [congruence|]. apply (gs_own _ GS g G).
    - intros g G NO. apply IN in G. destruct G as [->|(G & _)]; [rewrite FN in NO; tauto|]. apply (gs_comp _ GS g G); auto.
    - intros g G R0 U0. apply IN in G. destruct G as [->|(G & _)]; [|apply (gs_udp _ GS g G); auto].
      destruct PS as (p & P1 & P2); [congruence|]. apply (proto_sctp (cmdArgs c n lb) r f p A); auto. apply HM. }
  assert (FP : f_priority f = c_priority c) by apply A.
  exists []. split; [cbn; lia|]. split; [|split; [discriminate|split; [|reflexivity]]].
  2:{ intros _ q. rewrite SE in IN. eapply sane_define; [exact (SN q)|exact IN|rewrite FP; auto|rewrite FN; lia]. }
  unfold owes in OW. apply (inv_set s _ set' _ I GS'); intros a; rewrite ?SE in *.
  - intros Na. unfold refs. rewrite CN. cbn [app]. rewrite FR. destruct (findName set n) as [g|] eqn:EF.
    + destruct OW as (-> & ->). cbn [app]. destruct (lb =? a); lia.
    + rewrite OW. cbn [app]. rewrite countb_cons. cbn [isHold]. destruct (lb =? a); lia.
  - destruct (findName set n) as [g|]; [destruct OW as (_ & ->); reflexivity|rewrite OW; cbn [app]; rewrite countb_cons; cbn [isEnd]; lia].
  - destruct (findName set n) as [g|]; [destruct OW as (_ & ->); reflexivity|rewrite OW; cbn [app]; rewrite countb_cons; cbn [isGone]; lia].
Qed.
Lemma wf_define_comp L c n set own k : libc_ok L -> (Q -> close_priority lo (c_priority c)) -> valid_request L c -> c_name c = Some n -> own_name n -> c_udpencap c <> 0 ->
  (length own <= 1)%nat -> (forall set', findName set' n = findName set n -> wf true set' own k) ->
  wf true set own (define L (udpArgs c n) k).
Proof.
  intros HL CP (n' & E & ZN & (r & HM) & U & PS) EN ON NZ LO K. assert (n' = n) as -> by congruence.
  unfold define. cbn [wf]. split; [discriminate|]. intros s rest I SE _ B SN.
  specialize (SE eq_refl). specialize (SN eq_refl). pose proof (i_set _ _ I) as GS.
  destruct (companion_means L c n r HM ZN) as (r' & HM'); [lia|].
  pose proof (define_set L (t_set s) (udpArgs c n) r' HL (gs_names _ GS) HM') as D.
  assert (DS : Q -> exists x, flowDefine L (t_set s) (udpArgs c n) = Ok x).
  { intros q. specialize (SN q). specialize (CP q). rewrite SE. eapply define_stops; eauto. rewrite <- SE. apply (gs_names _ GS). }
  destruct (flowDefine L (t_set s) (udpArgs c n)) as [[[e|] set']| | |]; try (intros _ q; destruct (DS q); discriminate); [contradiction|]. clear DS.
  destruct D as (f & _ & A & ND & IN & CN). cbn [udpArgs a_name] in IN, CN.
  assert (FN : f_name f = 35 :: n) by apply A. assert (FR : f_ref f = 0) by apply A.
  assert (GS' : good_set set').
  { constructor; auto.
    - intros g G O. apply IN in G. destruct G as [->|(G & _)]; [|apply (gs_own _ GS g G); auto]. rewrite FN in O. destruct (not_own n O).
    - intros g G NO. apply IN in G. destruct G as [->|(G & _)]; auto. apply (gs_comp _ GS g G); auto.
    - intros g G R0 U0. apply IN in G. destruct G as [->|(G & _)]; [congruence|apply (gs_udp _ GS g G); auto]. }
  assert (FP : f_priority f = c_priority c) by apply A.
  exists own. split; auto. split; [|split; [discriminate|split]].
  2:{ intros _ q. rewrite SE in IN. eapply sane_define; [exact (SN q)|exact IN|rewrite FP; auto|rewrite FN; unfold zlen in *; cbn [length]; lia]. }
  - apply (inv_set s (own ++ rest) set' (own ++ rest) I GS'); auto. intros a Na. unfold refs. rewrite CN, FR.
    destruct (Z.eqb_spec 0 a) as [|_]; [congruence|].
    pose proof (find_name (t_set s) (35 :: n) (gs_names _ GS)) as FX. destruct (findName (t_set s) (35 :: n)) as [g|]; [|lia].
    destruct FX as (F1 & F2). rewrite (gs_comp _ GS g F1) by (rewrite F2; apply not_own).
    destruct (Z.eqb_spec 0 a) as [|_]; [congruence|]. lia.
  - apply K. rewrite <- SE. apply find_same; auto; [apply (gs_names _ GS)|]. intros g GN. cbn [t_set set_flows]. rewrite IN. split.
    + intros [->|(G & _)]; auto. exfalso. rewrite FN in GN. rewrite <- GN in ON. destruct (not_own n ON).
    + intros G. right. split; auto. intros X. rewrite GN in X. rewrite X in ON. destruct (not_own n ON).
Qed.

Lemma wf_setFlow L c n set lb own : libc_ok L -> (Q -> close_priority lo (c_priority c)) -> valid_request L c -> c_name c = Some n -> own_name n ->
  (if lb =? 0 then own = [] else owes set n lb own) -> wf true set own (setFlow L c lb).
Proof.
  intros HL CP V EN ON OW. unfold setFlow. destruct (Z.eqb_spec lb 0) as [E0|N0]; [exact OW|]. rewrite EN.
  destruct (Z.eqb_spec (c_udpencap c) 0) as [U0|U0].
  { apply wf_define_main; auto. }
  destruct V as (n' & E & ZN & M & U & PS). assert (n' = n) as -> by congruence.
  destruct (PS U0) as (p & P1 & P2). rewrite P1.
  assert (CE : caseeq p (str "sctp") = true).
  { unfold caseeq. apply streq_eq. rewrite (lower_case _ _ P2); [reflexivity|cbn; repeat constructor; lia]. }
  rewrite CE. destruct (Z.ltb_spec 1021 (zlen n)); [lia|].
  assert (V : valid_request L c) by (exists n; eauto 8).
  apply wf_define_comp; auto.
  - unfold owes in OW. destruct (findName set n); [destruct OW as (_ & ->); cbn; lia|rewrite OW; cbn; lia].
  - intros set' EF. apply wf_define_main; auto. unfold owes in *. rewrite EF. auto.
Qed.

Lemma wf_fresh L c n set : libc_ok L -> (Q -> close_priority lo (c_priority c)) -> valid_request L c -> c_name c = Some n -> own_name n -> findName set n = None ->
  wf true set [] (findOrCreate (c_target c) (setFlow L c)).
Proof.
  intros HL CP V EN ON FN. apply wf_find. intros a. apply (wf_setFlow L c n); auto. unfold owes. rewrite FN. destruct (a =? 0); auto.
Qed.

Lemma ref_flow set own f : In f set -> 0 < refs set own (f_ref f).
Proof.
  intros H. unfold refs. pose proof (countb_in (fun g => f_ref g =? f_ref f) set f H (Z.eqb_refl _)).
  pose proof (countb_nonneg _ (isHold (f_ref f)) own). lia.
Qed.

Lemma wf_set L c set : libc_ok L -> (Q -> c_target c <> None /\ close_priority lo (c_priority c)) -> (forall n, c_name c = Some n -> own_name n) -> valid_request L c ->
  wf true set [] (cmd_set L c).
Proof.
  intros HL CP ON V. assert (V' := V). destruct V' as (n & EN & _). specialize (ON n EN). unfold cmd_set. cbn [wf].
  split; [discriminate|]. intros s rest I SE _ B SN. specialize (SE eq_refl). specialize (SN eq_refl). rewrite EN.
  pose proof (i_set _ _ I) as GS. pose proof (find_name (t_set s) n (gs_names _ GS)) as FX.
  destruct (findName (t_set s) n) as [f|] eqn:EF.
  - destruct FX as (F1 & F2). assert (R : f_ref f <> 0) by (apply (gs_own _ GS f F1); rewrite F2; auto).
    cbn [app] in I. pose proof (ref_flow (t_set s) rest f F1) as RF. pose proof (refs_le (t_set s) rest (f_ref f)).
    destruct (inv_lock s rest (f_ref f) I) as (s' & -> & I' & ES); auto; try lia.
    exists [Hold (f_ref f)]. split; [cbn; lia|]. split; [exact I'|]. split; [discriminate|]. split; [rewrite ES, SE; auto|]. rewrite ES.
    apply wf_release; auto. intros set' SS. rewrite (SS eq_refl). clear set' SS.
    destruct (negb _); [reflexivity|]. destruct (c_target c) as [t|] eqn:ET; [|apply wf_stop_flow; intros q; destruct (CP q); congruence].
    cbn [wf]. split; [discriminate|]. intros s1 rest1 I1 SE1 _ B1 SN1. specialize (SE1 eq_refl). specialize (SN1 eq_refl). cbn [app] in I1.
    destruct (i_live _ _ I1 (f_ref f)) as (o & ->); auto; [rewrite SE1; apply ref_flow; auto|].
    rewrite SE1 in *. destruct (streq t (lb_target o)).
    + exists []. split; [cbn; lia|]. split; auto. split; [discriminate|]. split; [rewrite SE1; auto|]. apply (wf_setFlow L c n); auto; [apply CP|].
      rewrite (proj2 (Z.eqb_neq _ 0) R). unfold owes. rewrite SE1, EF. auto.
    + exists []. split; [cbn; lia|]. split; auto. split; [discriminate|]. split; [rewrite SE1; auto|]. apply (wf_find (t_set s1) (Some t)).
      intros a. destruct (a =? 0); [reflexivity|]. unfold release. rewrite (proj2 (Z.eqb_neq _ 0) R). cbn [wf].
      split; [discriminate|]. intros ? ? ? ? [].
  - exists []. split; [cbn; lia|]. split; auto. split; [discriminate|]. split; [rewrite SE; auto|]. apply (wf_fresh L c n); auto. apply CP.
Qed.

Lemma wf_delete c set : (forall n, c_name c = Some n -> own_name n) -> wf true set [] (cmd_delete c).
Proof.
  intros ON. unfold cmd_delete. destruct (c_name c) as [n|]; [|reflexivity]. specialize (ON n eq_refl). cbn [wf].
  split; [discriminate|]. intros s rest I SE _ B SN. specialize (SN eq_refl). specialize (SE eq_refl). cbn [app] in I. pose proof (i_set _ _ I) as GS.
  pose proof (delete_in n (t_set s) (gs_names _ GS)) as D. pose proof (fun p => count_delete p n (t_set s) (gs_names _ GS)) as CN.
  destruct (flowDelete (t_set s) n) as [r set']. destruct D as (D1 & D2 & D3 & _).
  assert (GS' : good_set set').
  { constructor; auto; intros g G; apply D2 in G; destruct G as (G & _); [apply (gs_own _ GS)|apply (gs_comp _ GS)|apply (gs_udp _ GS)]; auto. }
  assert (SD : sane lo (t_set s) -> sane lo set') by (intros X g G; apply D2 in G; apply X, G).
  assert (K : forall set'' ue, (Q -> 0 < ue -> zlen n <= 1021) -> wf true set'' [] (if 0 <? ue then
            if 1021 <? zlen n then stop
            else Act Quiet (fun s => Next [] (set_flows s (snd (flowDelete (t_set s) (35 :: n)))) (Ret (Reply "OK")))
          else Ret (Reply "OK"))).
  { intros set'' ue SH. destruct (Z.ltb_spec 0 ue); [|reflexivity]. destruct (Z.ltb_spec 1021 (zlen n)); [apply wf_stop_flow; intros q; specialize (SH q); lia|]. cbn [wf].
    split; [discriminate|]. intros s1 rest1 I1 SE1 _ _ SN1. specialize (SE1 eq_refl). specialize (SN1 eq_refl). cbn [app] in I1. pose proof (i_set _ _ I1) as GS1.
    pose proof (delete_in (35 :: n) (t_set s1) (gs_names _ GS1)) as E. pose proof (fun p => count_delete p (35 :: n) (t_set s1) (gs_names _ GS1)) as CN1.
    destruct (flowDelete (t_set s1) (35 :: n)) as [r1 set1]. destruct E as (E1 & E2 & E3 & _). cbn [snd].
    exists []. split; [cbn; lia|]. split; [|split; [discriminate|split; [|reflexivity]]].
    2:{ intros _ q g G. cbn [t_set set_flows] in G. apply E2 in G. rewrite SE1 in G. apply (SN1 q), G. }
    cbn [app].
    apply (inv_set s1 rest1 set1 rest1 I1); auto.
    - constructor; auto; intros g G; apply E2 in G; destruct G as (G & _); [apply (gs_own _ GS1)|apply (gs_comp _ GS1)|apply (gs_udp _ GS1)]; auto.
    - intros a Na. unfold refs. rewrite CN1. destruct r1 as [g|]; [|lia]. destruct E3 as (G1 & G2).
      rewrite (gs_comp _ GS1 g G1) by (rewrite G2; apply not_own). destruct (Z.eqb_spec 0 a) as [|_]; [congruence|]. lia. }
  destruct r as [f|].
  - destruct D3 as (F1 & F2). assert (R : f_ref f <> 0) by (apply (gs_own _ GS f F1); rewrite F2; auto).
    exists [Hold (f_ref f)]. split; [cbn; lia|]. split; [|split; [discriminate|split; [intros _ q; apply SD; rewrite SE; auto|]]].
    + cbn [app]. apply (inv_set s rest set' _ I GS'); intros a; rewrite ?countb_cons; cbn [isEnd isGone]; auto.
      intros Na. rewrite refs_hold. unfold refs. rewrite CN. destruct (f_ref f =? a); lia.
    + apply wf_release; auto. intros set'' ES. apply K. intros q _. specialize (SN q f). rewrite SE in F1. destruct (SN F1) as (_ & X). rewrite F2 in X. lia.
  - exists []. split; [cbn; lia|]. split; [|split; [discriminate|split; [intros _ q; apply SD; rewrite SE; auto|]]].
    + cbn [app]. apply (inv_set s rest set' _ I GS'); auto. intros a Na. unfold refs. rewrite CN. lia.
    + unfold release. cbn [Z.eqb]. apply K. intros _ X. lia.
Qed.

Lemma wf_list c set : wf true set [] (cmd_list c).
Proof.
  unfold cmd_list. cbn [wf]. split; [discriminate|]. intros s rest I SE _ B SN. cbn [app] in I.
  assert (F : forallb (fun f => (f_ref f =? 0) || match deref s (f_ref f) with None => false | Some _ => true end)
     (printed (t_set s) (c_name c)) = true).
  { apply forallb_forall. intros f H. assert (HI : In f (t_set s)).
    { unfold printed in H. destruct (c_name c) as [n|]; auto. pose proof (find_name (t_set s) n (gs_names _ (i_set _ _ I))) as FX.
      destruct (findName (t_set s) n); [|destruct H]. destruct H as [<-|[]]. apply FX. }
    destruct (Z.eqb_spec (f_ref f) 0) as [|N]; auto. cbn [orb].
    destruct (i_live _ _ I (f_ref f) N) as (o & ->); auto. apply ref_flow; auto. }
  rewrite F. exists []. split; [cbn; lia|]. split; [exact I|]. split; [discriminate|]. split; [rewrite SE by auto; auto|reflexivity].
Qed.

Lemma wf_command L c set : libc_ok L -> good_command L c -> (Q -> survivable lo c) -> wf true set [] (command L c).
Proof.
  intros HL (ON & V) SV. unfold command. destruct (c_action c) as [a|] eqn:EA; [|reflexivity].
  destruct (prefix _ _); [reflexivity|]. destruct (streq a (str "set")) eqn:ES.
  { apply streq_eq in ES. subst a. apply wf_set; auto. intros q. apply SV; auto. }
  destruct (streq a (str "delete")); [apply wf_delete; auto|]. destruct (streq a (str "list")); [apply wf_list|].
  destruct (streq a (str "list-names")); reflexivity.
Qed.
End Survive.
