(** Proofs about flows (C35-C37, C41, C61). *)
From Coq Require Import String Permutation Sorted.
From Verif Require Import Base Lists Cstr_Model Util_Spec Util_Proofs Rangeset_Model Rangeset_Spec
  Rangeset_Proofs Rangeset2_Proofs IpKey_Model IpKey_Spec IpKey_Proofs Match_Model Match_Spec Match_Proofs
  Flow_Model Flow_Spec Cidr_Proofs.

(** ** Ports *)
Lemma scanu_u32 s v r : scanu s = Some (v, r) -> is_u32 v.
Proof.
  unfold scanu. destruct (match skip isspace s with [] => _ | _ => _ end) as [neg s2].
  destruct (digits 10 0 0 s2) as [[w n] rest]. destruct (n =? 0); [discriminate|].
  assert (U : forall x, is_u32 (u32 x)).
  { intros x. unfold is_u32, u32, UINT_MAX. pose proof (Z.mod_pos_bound x two32 ltac:(reflexivity)). unfold two32 in *. lia. }
  destruct (ULONG_MAX <? w); intros H.
  - assert (v = u32 ULONG_MAX) as -> by congruence. apply U.
  - assert (v = u32 (if neg then - w else w)) as -> by congruence. apply U.
Qed.
Lemma one_added t tok t' : rangeSetAddOneStr t tok = Some t' ->
  exists f e, range_u32 (f, e) /\ rangeSetAdd t f e = Some t'.
Proof.
  unfold rangeSetAddOneStr. destruct (split_at 45 tok).
  - destruct (scanu tok) as [[f r]|] eqn:E1; [|discriminate]. destruct r as [|c r]; [discriminate|].
    destruct (c =? 45); [|discriminate]. destruct (scanu r) as [[l r']|] eqn:E2; [|discriminate].
    destruct (l <? f); [discriminate|]. intros H. exists f, l. split; auto.
    split; [eapply scanu_u32; eauto|eapply scanu_u32; eauto].
  - destruct (scanu tok) as [[f r]|] eqn:E1; [|discriminate]. intros H. exists f, f. split; auto.
    split; eapply scanu_u32; eauto.
Qed.
Lemma toks_added tks : forall t t', addToks t tks = (t', true) ->
  exists rs, length rs = length tks /\ Forall range_u32 rs /\ t' = add_all t rs.
Proof.
  induction tks as [|tk tks IH]; intros t t' H; cbn [addToks] in H.
  - exists []. split; [auto|]. split; [constructor|]. cbn. congruence.
  - destruct (rangeSetAddOneStr t tk) as [t1|] eqn:E; [|discriminate].
    destruct (one_added _ _ _ E) as (f & e & U & A). destruct (IH _ _ H) as (rs & L & F & ->).
    exists ((f, e) :: rs). split; [cbn; auto|]. split; [constructor; auto|]. cbn [add_all]. rewrite A. auto.
Qed.
Lemma toks_len n : forall d s l, toks n d s = Ok l -> (length l <= n)%nat.
Proof.
  induction n as [|n IH]; intros d s l; cbn [toks]; destruct (strtok_r d s) as [[t rest]|]; try discriminate.
  - intros H. assert (l = []) as -> by congruence. cbn. lia.
  - destruct (toks n d rest) as [l'| | |] eqn:E; cbn [obind]; try discriminate.
    intros H. assert (l = t :: l') as -> by congruence. apply IH in E. cbn. lia.
  - intros H. assert (l = []) as -> by congruence. cbn. lia.
Qed.

Lemma new_ports : exists t0, rangeSetCreateLimited 1 65535 = Some t0 /\ created t0 1 65535.
Proof.
  eexists. split; [reflexivity|]. right. split; [reflexivity|]. unfold is_u32, UINT_MAX. lia.
Qed.

(** A search in an updated set *)
Lemma in_ports sort fuel t0 lo hi l t : qsort_ok sort -> created t0 lo hi -> Forall range_u32 l ->
  zlen l <= UINT_MAX -> (length l <= fuel)%nat -> rangeSetUpdate sort fuel (add_all t0 l) = Ok t ->
  forall v, exists b, inPorts (Some t) v = Ok b /\
    (b = true <-> exists f e, In (f, e) l /\ acceptable lo hi (f, e) /\ f <= v <= e).
Proof.
  intros HQ HC HU HL HF E v.
  destruct (fresh_update sort fuel t0 lo hi l HQ HC HU HL HF)
    as (t' & tr & E' & I & CN & CV & _ & CT & D & D2 & _).
  assert (t' = t) by congruence. subst t'. destruct I as (I1 & _ & I3 & _).
  assert (DS : (depth tr <= S (Z.to_nat (rangeSetSize t)))%nat).
  { unfold rangeSetSize. rewrite CT. unfold zlen. rewrite Nat2Z.id.
    destruct (length (ranges tr)) as [|k] eqn:EL; [lia|]. pose proof (Nat.log2_lt_lin (S k)). lia. }
  destruct (search_rep (hp t) tr v _ I1 (canonical_ordered _ CN) DS) as (b & Hb & Hc).
  exists b. cbn [inPorts]. unfold rangeSetIn. rewrite I3. split; auto. rewrite Hc, CV. unfold covered.
  split; intros (f & e & K & Hv); exists f, e.
  - apply filter_In in K. rewrite accepts_iff in K. tauto.
  - rewrite filter_In, accepts_iff. tauto.
Qed.

Lemma ports_total L s : qsort_ok (sort_nodes L) -> exists r, parsePorts L s = Ok r /\
  forall t, r = Some t -> forall v, exists b, inPorts (Some t) v = Ok b.
Proof.
  intros Q. destruct new_ports as (t0 & C0 & C1). unfold parsePorts. rewrite C0.
  unfold rangeSetAddStr. set (s' := firstn (Z.to_nat 1024) s).
  destruct (toks_total [44; 32] (length s') s' (le_n _)) as (tks & ET). rewrite ET. cbn [obind].
  destruct (addToks t0 tks) as [t ok] eqn:EA. destruct ok.
  2:{ eexists. split; [reflexivity|]. discriminate. }
  destruct (toks_added _ _ _ EA) as (rs & LR & FR & ->). pose proof (toks_len _ _ _ _ ET) as LT.
  assert (LS : (length s' <= length s)%nat) by (unfold s'; rewrite firstn_length; lia).
  assert (LS2 : (length s' <= Z.to_nat 1024)%nat) by (unfold s'; rewrite firstn_length; lia).
  assert (Z1 : zlen rs <= UINT_MAX) by (unfold zlen, UINT_MAX; lia).
  assert (Z2 : (length rs <= S (length s))%nat) by lia.
  destruct (union_exact (sort_nodes L) (S (length s)) t0 1 65535 rs Q C1 FR Z1 Z2) as (t & ETT & _).
  rewrite ETT. cbn [obind]. eexists. split; [reflexivity|]. intros t' Et' v. injection Et' as <-.
  destruct (in_ports _ _ _ _ _ _ _ Q C1 FR Z1 Z2 ETT v) as (b & Hb & _). eauto.
Qed.

Lemma acceptable_u32 l : Forall (acceptable 1 65535) l -> Forall range_u32 l.
Proof.
  intros F. eapply Forall_impl; [|exact F]. intros [f e] (A & B & C). cbn in *.
  split; unfold is_u32, UINT_MAX; cbn; lia.
Qed.
Lemma pieces_len d s l : pieces d s l -> (length l <= length s)%nat.
Proof.
  induction 1 as [s H|sep t H H0 H1|sep t c s' l H H0 H1 Hc Hp IH]; cbn [length]; [lia| |].
  - rewrite app_length. destruct t; [congruence|]. cbn [length]. lia.
  - rewrite !app_length. cbn [length]. lia.
Qed.
Lemma ports_exact L s l : qsort_ok (sort_nodes L) -> ports_text s l ->
  exists t, parsePorts L s = Ok (Some t) /\ forall v, exists b, inPorts (Some t) v = Ok b /\ (b = true <-> covered l v).
Proof.
  intros Q (LS & FA & tks & P & F2). destruct new_ports as (t0 & C0 & C1). unfold parsePorts. rewrite C0.
  unfold rangeSetAddStr. rewrite firstn_all2 by (unfold zlen in LS; lia).
  destruct (toks_total [44; 32] (length s) s (le_n _)) as (tk & ET). rewrite ET. cbn [obind].
  assert (tk = tks) by (eapply pieces_unique; eauto using toks_pieces). subst tk.
  pose proof (acceptable_u32 _ FA) as FU.
  assert (LH : lowest t0 = 1 /\ highest t0 = 65535).
  { unfold rangeSetCreateLimited in C0. cbn in C0. inversion C0; auto. }
  destruct LH as (LH1 & LH2).
  rewrite (addToks_all tks t0 l 1 65535) by (auto; unfold is_u32, UINT_MAX; lia).
  assert (LF : length tks = length l) by (clear -F2; induction F2; cbn; auto). pose proof (pieces_len _ _ _ P) as LP.
  assert (Z1 : zlen l <= UINT_MAX) by (unfold zlen, UINT_MAX in *; lia).
  assert (Z2 : (length l <= S (length s))%nat) by lia.
  destruct (union_exact (sort_nodes L) (S (length s)) t0 1 65535 l Q C1 FU Z1 Z2) as (t & ETT & _).
  rewrite ETT. cbn [obind]. exists t. split; auto. intros v.
  destruct (in_ports _ _ _ _ _ _ _ Q C1 FU Z1 Z2 ETT v) as (b & Hb & Hc). exists b. split; auto.
  rewrite Hc. unfold covered. rewrite Forall_forall in FA.
  split; intros (f & e & K & R); exists f, e; intuition auto.
Qed.

(** ** Protocols *)
Lemma lower_case s t : any_case s t -> Forall (fun l => 97 <= l <= 122) t -> map lowercase s = t.
Proof.
  induction 1 as [|c l s t H H2 IH]; intros F; cbn [map]; auto.
  apply Forall_cons_iff in F. destruct F as (F1 & F2). rewrite IH by auto. f_equal. unfold lowercase.
  destruct H as [->|(R & ->)].
  - replace ((65 <=? l) && (l <=? 90)) with false by lia. auto.
  - replace ((65 <=? l - 32) && (l - 32 <=? 90)) with true by lia. lia.
Qed.
Lemma proto_case s p t u sc r : proto_text s p ->
  protobits (s :: r) t u sc = protobits r (t || (p =? 6)) (u || (p =? 17)) (sc || (p =? 132)) /\
  (p = 6 \/ p = 17 \/ p = 132).
Proof.
  intros (w & A & N). cbn [protobits]. unfold caseeq.
  destruct N as [(-> & ->)|[(-> & ->)|(-> & ->)]]; rewrite (lower_case _ _ A) by (cbn; repeat (apply Forall_cons; [lia|]); apply Forall_nil);
    cbn; destruct t, u, sc; cbn; auto.
Qed.
Lemma protobits_ok ss : forall ps t u sc, Forall2 proto_text ss ps ->
  protobits ss t u sc = Some (t || existsb (Z.eqb 6) ps, u || existsb (Z.eqb 17) ps, sc || existsb (Z.eqb 132) ps) /\
  Forall (fun p => p = 6 \/ p = 17 \/ p = 132) ps.
Proof.
  induction ss as [|s ss IH]; intros ps t u sc H; inversion H as [|s' p ss' ps' H1 H2]; subst.
  - cbn. rewrite !orb_false_r. auto.
  - destruct (proto_case s p t u sc ss H1) as (-> & K). destruct (IH ps' (t || (p =? 6)) (u || (p =? 17)) (sc || (p =? 132)) H2) as (-> & F).
    split; [|constructor; auto]. cbn [existsb]. rewrite !orb_assoc.
    rewrite (Z.eqb_sym 6), (Z.eqb_sym 17), (Z.eqb_sym 132). auto.
Qed.
Lemma protocols_ok ss ps : Forall2 proto_text ss ps ->
  exists l, parseProtocol ss = Some l /\ forall x, existsb (Z.eqb x) l = true <-> In x ps.
Proof.
  intros H. unfold parseProtocol. destruct (protobits_ok ss ps false false false H) as (-> & F).
  eexists. split; [reflexivity|]. intros x. cbn [orb].
  assert (E : forall y, existsb (Z.eqb y) ps = true <-> In y ps).
  { intros y. rewrite existsb_exists. split; [intros (z & I & Ez); apply Z.eqb_eq in Ez; congruence|].
    intros I. exists y. split; auto. apply Z.eqb_refl. }
  rewrite Forall_forall in F.
  rewrite existsb_exists. split.
  - intros (z & I & Ez). apply Z.eqb_eq in Ez. subst z. apply E. rewrite !in_app_iff in I.
    destruct (existsb (Z.eqb 6) ps) eqn:E6, (existsb (Z.eqb 17) ps) eqn:E17, (existsb (Z.eqb 132) ps) eqn:E132;
      cbn in I; intuition (try congruence).
  - intros I. exists x. split; [|apply Z.eqb_refl]. pose proof (F _ I) as K. apply E in I.
    rewrite !in_app_iff. destruct K as [-> |[-> | ->]]; rewrite I; cbn; auto.
Qed.

(** ** Definitions *)
Lemma addMatches_texts l : forall m, addMatches m l =
  omap (fun r => match r with inl _ => None | inr x => Some x end) (add_texts m l).
Proof.
  induction l as [|s l IH]; intros m; cbn [addMatches add_texts]; auto.
  destruct (matchAdd m s) as [[e|m']| | |]; cbn [obind omap]; auto.
Qed.

(** A prefix list in the model and in the specification *)
Definition cidrs_agree (cs : option (list cidr)) (ps : option (list prefix)) : Prop :=
  forall adr, bytes 16 adr ->
    (inCidrs cs adr = true <-> all_or ps (fun l => exists c, In c l /\ in_cidr c adr)).
Lemma parseAll_ok L ss cs : libc_ok L -> Forall2 (cidr_text L) ss cs ->
  exists l, parseAll L ss = Ok (Some l) /\ cidrs_agree (Some l) (Some cs).
Proof.
  intros HL. induction 1 as [|s c ss cs H H2 IH]; cbn [parseAll].
  - exists []. split; auto. intros adr B. cbn. split; [discriminate|intros (c & [] & _)].
  - destruct (cidr_ok L s c HL H) as (cd & -> & E). cbn [obind]. destruct IH as (l & -> & A). cbn [obind].
    exists (cd :: l). split; auto. intros adr B. cbn [inCidrs existsb all_or]. rewrite orb_true_iff, E by auto.
    specialize (A adr B). cbn [inCidrs all_or] in A. rewrite A.
    split; [intros [K|(x & I & K)]; [exists c; cbn; auto|exists x; cbn; auto]|].
    intros (x & [->|I] & K); [auto|]. right. exists x. auto.
Qed.
Lemma cidrs_ok L ss cs : libc_ok L -> cidr_texts L ss cs ->
  exists l, parseCidrs L ss = Ok (Some l) /\ cidrs_agree (Some l) (Some cs).
Proof.
  intros HL (B & F). unfold parseCidrs. replace (zlen ss =? 0) with false by lia.
  replace (32 <? zlen ss) with false by lia. apply parseAll_ok; auto.
Qed.

(** What a stored flow does with the packets of a five-tuple *)
Definition ports_agree (t : option rset) (l : option (list range)) : Prop :=
  forall v, exists b, inPorts t v = Ok b /\ (b = true <-> all_or l (fun l => covered l v)).
Definition match_agree (m : option (list item)) (es : option (list expr)) : Prop :=
  match m, es with
  | None, None => True
  | Some m, Some es => forall eth data proto l4 l4arg, found eth data proto l4 ->
      l4 + header_size proto < zlen data -> (proto = 17 -> l4arg <> 132) ->
      exists b, matchMatches (Some m) eth l4arg data = Ok b /\ (b = true <-> accepts es proto data l4)
  | _, _ => False
  end.
Definition agrees (a : fargs) (r : rule) (f : frec) : Prop :=
  f_name f = a_name a /\ f_priority f = a_priority a /\ f_ref f = a_ref a /\ f_udpencap f = a_udpencap a /\
  (forall x, match f_protocols f with None => true | Some l => existsb (Z.eqb x) l end = true <->
             all_or (r_protocols r) (fun l => In x l)) /\
  ports_agree (f_dports f) (r_dports r) /\ ports_agree (f_sports f) (r_sports r) /\
  cidrs_agree (f_dsts f) (r_dsts r) /\ cidrs_agree (f_srcs f) (r_srcs r) /\
  match_agree (f_match f) (r_match r).

Lemma given_ports L e a l : qsort_ok (sort_nodes L) -> given ports_text a l ->
  exists t, ifgiven e a (parsePorts L) = Ok (inr t) /\ ports_agree t l.
Proof.
  intros Q G. destruct a as [a|], l as [l|]; cbn [given] in G; try contradiction; cbn [ifgiven].
  - destruct (ports_exact L a l Q G) as (t & -> & H). cbn [obind]. exists (Some t). split; auto.
  - exists None. split; auto. intros v. exists true. cbn. tauto.
Qed.
Lemma given_cidrs L e a l : libc_ok L -> given (cidr_texts L) a l ->
  exists t, ifgiven e a (parseCidrs L) = Ok (inr t) /\ cidrs_agree t l.
Proof.
  intros Q G. destruct a as [a|], l as [l|]; cbn [given] in G; try contradiction; cbn [ifgiven].
  - destruct (cidrs_ok L a l Q G) as (t & -> & H). cbn [obind]. exists (Some t). split; auto.
  - exists None. split; auto. intros v. cbn. tauto.
Qed.

Lemma makeFlow_ok L a r : libc_ok L -> means L a r -> exists f, makeFlow L a = Ok (inr f) /\ agrees a r f.
Proof.
  intros HL (N & P & DP & SP & DS & SS & M). pose proof HL as (_ & Q & _). unfold makeFlow, MAX_NAME.
  replace (1024 <=? zlen (a_name a)) with false by lia.
  assert (HP : exists p, ifgiven "Invalid protocols" (a_protocols a) (fun v => Ok (parseProtocol v)) = Ok (inr p) /\
    forall x, match p with None => true | Some l => existsb (Z.eqb x) l end = true <-> all_or (r_protocols r) (fun l => In x l)).
  { destruct (a_protocols a) as [ss|], (r_protocols r) as [ps|]; cbn [given] in P; try contradiction; cbn [ifgiven].
    - destruct (protocols_ok ss ps P) as (l & -> & E). cbn [obind]. exists (Some l). split; auto.
    - exists None. split; auto. intros x. cbn. tauto. }
  destruct HP as (p & -> & AP). cbn [obind].
  destruct (given_ports L "Invalid dports" _ _ Q DP) as (dp & -> & AD). cbn [obind].
  destruct (given_ports L "Invalid dports" _ _ Q SP) as (sp & -> & AS). cbn [obind].
  destruct (given_cidrs L "Invalid dsts" _ _ HL DS) as (ds & -> & ADS). cbn [obind].
  destruct (given_cidrs L "Invalid srcs" _ _ HL SS) as (ss & -> & ASS). cbn [obind].
  assert (HM : exists m, ifgiven "Match" (a_match a) (addMatches matchCreate) = Ok (inr m) /\ match_agree m (r_match r)).
  { destruct (a_match a) as [ms|], (r_match r) as [es|]; cbn [given] in M; try contradiction; cbn [ifgiven].
    - destruct M as (M1 & M2 & M3 & M4). destruct (match_packet ms es M1 M2 M3 M4) as (m & E & A & _).
      rewrite addMatches_texts, E. cbn [omap obind]. exists (Some m). split; auto.
    - exists None. split; cbn; auto. }
  destruct HM as (m & -> & AM). cbn [obind].
  eexists. split; [reflexivity|]. unfold agrees. cbn [f_name f_priority f_ref f_udpencap f_protocols f_dports f_sports f_dsts f_srcs f_match].
  auto 12.
Qed.

Lemma makeFlow_fields L a f : makeFlow L a = Ok (inr f) ->
  f_name f = a_name a /\ f_priority f = a_priority a /\ f_ref f = a_ref a /\ f_udpencap f = a_udpencap a /\
  zlen (f_name f) < MAX_NAME.
Proof.
  unfold makeFlow. destruct (MAX_NAME <=? zlen (a_name a)) eqn:E; [discriminate|].
  repeat (match goal with |- context [obind ?x _] => destruct x as [[?|?]| | |]; cbn [obind]; try discriminate end).
  intros H. match type of H with Ok (inr ?g) = _ => assert (f = g) as -> by congruence end.
  cbn. repeat split; auto. lia.
Qed.
