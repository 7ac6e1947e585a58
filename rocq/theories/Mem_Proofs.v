(** Proofs about the memory of flows (C85). *)
From Coq Require Import String Permutation.
From Verif Require Import Base Lists Cstr_Model Util_Model Util_Proofs Rangeset_Model Rangeset_Spec Rangeset_Proofs
  Match_Model Match_Proofs Flow_Model Flow_Spec Flow_Proofs Flow3_Proofs Remote_Model Remote_Proofs Mem_Model Mem_Spec.

Definition own (m : mem) (l : list (Z * tag)) : Prop :=
  held m l /\ 0 < m_next m /\ Forall (fun b => 0 < fst b < m_next m) l /\ clean m.
Definition blk (p : Z) (t : tag) : list (Z * tag) := if p =? 0 then [] else [(p, t)].

Lemma own_perm m l l' : own m l -> Permutation l l' -> own m l'.
Proof.
  intros ((N & H) & P & F & C) E. split; [split|split; [auto|split; [|auto]]].
  - eapply Permutation_NoDup; [|exact N]. apply Permutation_map. auto.
  - intros p t. rewrite H. split; intros K; [eapply Permutation_in; eauto|eapply Permutation_in; [symmetry; eauto|auto]].
  - rewrite Forall_forall in *. intros b B. apply F. eapply Permutation_in; [symmetry; eauto|auto].
Qed.
Lemma own0 : own mem0 [].
Proof. split; [split; [constructor|]|split; [cbn; lia|split; constructor]]. cbn. intros p t. split; [discriminate|tauto]. Qed.

Lemma own_alloc m l t p m' : own m l -> malloc m t = (p, m') -> own m' ((p, t) :: l) /\ 0 < p.
Proof.
  intros ((N & H) & P & F & C) E. unfold malloc in E. injection E as <- <-. split; [|auto].
  assert (FR : ~ In (m_next m) (map fst l)).
  { intros K. apply in_map_iff in K. destruct K as (b & E & K). rewrite Forall_forall in F. apply F in K. lia. }
  split; [split|cbn [m_next]; split; [lia|split; [|exact C]]].
  - cbn [map fst]. constructor; auto.
  - cbn [m_live]. intros q u. unfold mput. destruct (Z.eqb_spec q (m_next m)) as [->|NE].
    + split; [intros [= ->]; cbn; auto|]. intros [K|K]; [congruence|]. exfalso. apply FR. apply in_map_iff. exists (m_next m, u). auto.
    + rewrite H. cbn [In]. split; [auto|]. intros [K|K]; [congruence|auto].
  - constructor; [cbn; lia|]. eapply Forall_impl; [|exact F]. cbn. intros; lia.
Qed.

Lemma own_live m l p t : own m l -> In (p, t) l -> m_live m p = Some t /\ p <> 0.
Proof.
  intros ((N & H) & P & F & C) K. split; [apply H; auto|]. rewrite Forall_forall in F. apply F in K. cbn in K. lia.
Qed.
Lemma own_touch m l p t : own m l -> In (p, t) l -> touch m p = Ok tt.
Proof. intros O K. destruct (own_live _ _ _ _ O K) as (E & NZ). unfold touch. rewrite E. destruct (p =? 0); auto. Qed.

Lemma own_free1 m l p t : own m ((p, t) :: l) -> exists m', mfree m p = Ok m' /\ own m' l.
Proof.
  intros O. destruct (own_live _ _ p t O ltac:(cbn; auto)) as (E & NZ).
  destruct O as ((N & H) & P & F & C). unfold mfree. rewrite E. destruct (Z.eqb_spec p 0); [congruence|].
  eexists. split; [reflexivity|]. cbn [map fst] in N. apply NoDup_cons_iff in N. destruct N as (NI & N).
  split; [split; [auto|]|cbn [m_next]; split; [auto|split; [inversion F; auto|exact C]]].
  cbn [m_live]. intros q u. unfold mput. destruct (Z.eqb_spec q p) as [->|NE].
  - split; [discriminate|]. intros K. exfalso. apply NI. apply in_map_iff. exists (p, u). auto.
  - rewrite H. cbn [In]. split; [intros [K|K]; [congruence|auto]|auto].
Qed.
Lemma own_free m l p t : own m (blk p t ++ l) -> exists m', mfree m p = Ok m' /\ own m' l.
Proof.
  unfold blk. destruct (Z.eqb_spec p 0) as [->|NZ]; cbn [app]; intros O; [|eapply own_free1; eauto].
  exists m. split; auto.
Qed.

(** ** Ports *)

Definition ready (t : rset) : Prop := exists tr ta acc, inv t tr ta acc.
Lemma depth_ids t : (depth t <= length (ids t))%nat.
Proof. induction t as [|i r a IHa b IHb]; cbn; [lia|]. rewrite app_length. cbn [length]. lia. Qed.
Lemma ids_bound l n : NoDup l -> (forall q, In q l -> 1 <= q < n) -> (length l <= Z.to_nat n)%nat.
Proof.
  intros N B. rewrite <- (map_length Z.to_nat l). rewrite <- (seq_length (Z.to_nat n) 0).
  apply NoDup_incl_length.
  - clear -N B. induction N as [|x l NI N IH]; cbn; [constructor|]. constructor.
    + intros K. apply in_map_iff in K. destruct K as (y & E & K). assert (y = x).
      { pose proof (B y ltac:(cbn; auto)). pose proof (B x ltac:(cbn; auto)). lia. } subst. auto.
    + apply IH. intros q K. apply B. cbn; auto.
  - intros y K. apply in_map_iff in K. destruct K as (q & <- & K). apply B in K. apply in_seq. lia.
Qed.
Lemma ready_free t : ready t -> exists h, rangeSetDestroy (Z.to_nat (next t)) t = Ok h /\ forall q, h q = None.
Proof.
  intros (tr & ta & acc & I). pose proof I as (I1 & I2 & I3 & I4 & N & B & _).
  pose proof (ids_bound _ _ N B) as LB. rewrite app_length in LB.
  pose proof (depth_ids tr). pose proof (depth_ids ta). eapply destroy_inv; eauto; lia.
Qed.
Lemma toks_ready tks : forall t t' ok, addToks t tks = (t', ok) -> ready t -> ready t'.
Proof.
  induction tks as [|tk tks IH]; intros t t' ok H R; cbn [addToks] in H; [congruence|].
  destruct (rangeSetAddOneStr t tk) as [t1|] eqn:E; [|congruence].
  eapply IH; [exact H|]. destruct (one_added _ _ _ E) as (f & e & U & A). destruct R as (tr & ta & acc & I).
  destruct (inv_add _ _ _ _ _ _ _ I U A) as (I1 & _). eexists _, _, _. exact I1.
Qed.

(** What parsing ports does, with the set it leaves *)
Lemma ports_ready L s : qsort_ok (sort_nodes L) -> exists t0 t1 ok, rangeSetCreateLimited 1 65535 = Some t0 /\
  rangeSetAddStr t0 s = Ok (t1, ok) /\ ready t1 /\
  if ok : bool then exists t2, rangeSetUpdate (sort_nodes L) (S (length s)) t1 = Ok t2 /\ ready t2 /\ parsePorts L s = Ok (Some t2)
  else parsePorts L s = Ok None.
Proof.
  intros Q. destruct new_ports as (t0 & C0 & C1). exists t0. unfold parsePorts. rewrite C0.
  unfold rangeSetAddStr. set (s' := firstn (Z.to_nat 1024) s).
  destruct (toks_total [44; 32] (length s') s' (le_n _)) as (tks & ET). rewrite ET. cbn [obind].
  destruct (addToks t0 tks) as [t1 ok] eqn:EA. exists t1, ok. split; auto. split; auto.
  assert (R0 : ready t0). { destruct (inv_create _ _ _ C1) as (I & _). eexists _, _, _. exact I. }
  pose proof (toks_ready _ _ _ _ EA R0) as R1. split; auto.
  destruct ok; [|auto].
  destruct (toks_added _ _ _ EA) as (rs & LR & FR & ->). pose proof (toks_len _ _ _ _ ET) as LT.
  assert (LS : (length s' <= length s)%nat) by (unfold s'; rewrite firstn_length; lia).
  assert (LS2 : (length s' <= Z.to_nat 1024)%nat) by (unfold s'; rewrite firstn_length; lia).
  assert (Z1 : zlen rs <= UINT_MAX) by (unfold zlen, UINT_MAX; lia).
  assert (Z2 : (length rs <= S (length s))%nat) by lia.
  destruct (fresh_update _ _ t0 1 65535 rs Q C1 FR Z1 Z2) as (t2 & tr & E & I' & _).
  exists t2. rewrite E. cbn [obind]. split; auto. split; auto. eexists _, _, _. exact I'.
Qed.

(** ** Flows *)

Definition pblk (s : option (Z * rset)) : list (Z * tag) := match s with None => [] | Some (p, _) => [(p, TPorts)] end.
Definition mblk (s : option (Z * Z)) : list (Z * tag) := match s with None => [] | Some (p, i) => blk i TItems ++ [(p, TMatch)] end.
Definition blocks (x : mflow) : list (Z * tag) :=
  blk (x_proto x) TProto ++ blk (x_dsts x) TCidrs ++ blk (x_srcs x) TCidrs ++ pblk (x_dports x) ++ pblk (x_sports x)
  ++ mblk (x_match x) ++ blk (x_name x) TName ++ [(x_self x, TFlow)].
Definition pok (s : option (Z * rset)) : Prop := match s with None => True | Some (_, t) => ready t end.
Definition sound (x : mflow) : Prop := pok (x_dports x) /\ pok (x_sports x).

Lemma ports_free m l s : own m (pblk s ++ l) -> pok s -> exists m', portsFree m s = Ok m' /\ own m' l.
Proof.
  destruct s as [[p t]|]; cbn [pblk pok portsFree app]; intros O R; [|eauto].
  rewrite (own_touch _ _ p TPorts O) by (cbn; auto). cbn [obind].
  destruct (ready_free _ R) as (h & -> & HE). cbn [obind].
  destruct (own_free1 _ _ _ _ O) as (m1 & -> & (H & P & F & C)). cbn [obind]. eexists. split; [reflexivity|].
  split; [exact H|]. split; [exact P|]. split; [exact F|]. constructor; auto.
Qed.
Lemma match_free m l s : own m (mblk s ++ l) -> exists m', matchFree m s = Ok m' /\ own m' l.
Proof.
  destruct s as [[p i]|]; cbn [mblk matchFree app]; intros O; [|eauto].
  rewrite (own_touch _ _ p TMatch O) by (rewrite !in_app_iff; cbn; auto). cbn [obind].
  rewrite <- app_assoc in O. destruct (own_free _ _ _ _ O) as (m1 & -> & O1). cbn [obind].
  destruct (own_free1 _ _ _ _ O1) as (m2 & -> & O2). eauto.
Qed.
Lemma flow_free m l x : own m (blocks x ++ l) -> sound x -> exists m', flowFree m x = Ok m' /\ own m' l.
Proof.
  intros O (S1 & S2). unfold flowFree.
  rewrite (own_touch _ _ (x_self x) TFlow O) by (unfold blocks; rewrite !in_app_iff; cbn; tauto). cbn [obind].
  unfold blocks in O. rewrite <- !app_assoc in O.
  destruct (own_free _ _ _ _ O) as (m1 & -> & O1). cbn [obind].
  destruct (own_free _ _ _ _ O1) as (m2 & -> & O2). cbn [obind].
  destruct (own_free _ _ _ _ O2) as (m3 & -> & O3). cbn [obind].
  destruct (ports_free _ _ _ O3 S1) as (m4 & -> & O4). cbn [obind].
  destruct (ports_free _ _ _ O4 S2) as (m5 & -> & O5). cbn [obind].
  destruct (match_free _ _ _ O5) as (m6 & -> & O6). cbn [obind].
  destruct (own_free _ _ _ _ O6) as (m7 & -> & O7). cbn [obind].
  destruct (own_free1 _ _ _ _ O7) as (m8 & -> & O8). eauto.
Qed.

(** ** The stages *)

Lemma blk_pos p t : 0 < p -> blk p t = [(p, t)].
Proof. intros H. unfold blk. destruct (Z.eqb_spec p 0); [lia|auto]. Qed.

Definition grows (n : list (Z * tag)) (x x' : mflow) : Prop := Permutation (blocks x') (n ++ blocks x).
Lemma skip_app {A} (h n a b : list A) : Permutation a (n ++ b) -> Permutation (h ++ a) (n ++ h ++ b).
Proof. intros H. rewrite (Permutation_app_head h H). apply Permutation_app_swap_app. Qed.
Ltac grow := intros; unfold grows, blocks;
  cbn [set_proto set_dsts set_srcs set_dports set_sports set_match set_name x_proto x_dsts x_srcs x_dports x_sports x_match x_name x_self];
  repeat match goal with E : _ = 0 |- _ => rewrite E | E : _ = None |- _ => rewrite E | H : 0 < ?p |- _ => rewrite (blk_pos p) by exact H end;
  repeat first [reflexivity | apply skip_app].
Lemma grow_proto x p : x_proto x = 0 -> 0 < p -> grows [(p, TProto)] x (set_proto x p).
Proof. grow. Qed.
Lemma grow_dsts x p : x_dsts x = 0 -> 0 < p -> grows [(p, TCidrs)] x (set_dsts x p).
Proof. grow. Qed.
Lemma grow_srcs x p : x_srcs x = 0 -> 0 < p -> grows [(p, TCidrs)] x (set_srcs x p).
Proof. grow. Qed.
Lemma grow_dports x p t : x_dports x = None -> grows [(p, TPorts)] x (set_dports x (Some (p, t))).
Proof. grow. Qed.
Lemma grow_sports x p t : x_sports x = None -> grows [(p, TPorts)] x (set_sports x (Some (p, t))).
Proof. grow. Qed.
Lemma grow_match x p i : x_match x = None -> grows (blk i TItems ++ [(p, TMatch)]) x (set_match x (Some (p, i))).
Proof. grow. Qed.
Lemma grow_name x p n : x_name x = 0 -> 0 < p -> grows [(p, TName)] x (set_name x p n).
Proof. grow. Qed.
Lemma own_grows m n x x' l : own m (n ++ blocks x ++ l) -> grows n x x' -> own m (blocks x' ++ l).
Proof. intros O G. eapply own_perm; [exact O|]. rewrite app_assoc. apply Permutation_app_tail. symmetry. exact G. Qed.
Lemma grows_tags n x x' : grows n x x' -> Permutation (map snd (blocks x')) (map snd n ++ map snd (blocks x)).
Proof. intros G. rewrite <- map_app. apply Permutation_map. exact G. Qed.

(** A stage gives the result of the parser; what it added to the flow has these tags. *)
Definition good {A} (r : string + A) : bool := match r with inr _ => true | inl _ => false end.
Definition stage_ok {A B} (st : stage) (r : string + A) (t : list tag) (set : mflow -> B -> mflow) (x : mflow) : Prop :=
  forall m l, own m (blocks x ++ l) -> sound x ->
  exists m' x', st m x = Ok (m', x', good r) /\ own m' (blocks x' ++ l) /\ sound x' /\ (x' = x \/ exists v, x' = set x v) /\
    (good r = true -> Permutation (map snd (blocks x')) (t ++ map snd (blocks x))).

Lemma proto_ok v e x : x_proto x = 0 -> exists r, ifgiven e v (fun v => Ok (parseProtocol v)) = Ok r /\
  stage_ok (protoStage v) r (some v TProto) set_proto x.
Proof.
  intros Z0. destruct v as [v|]; cbn [ifgiven obind protoStage].
  2:{ eexists. split; [reflexivity|]. intros m l O S. exists m, x. cbn. auto 6. }
  unfold stage_ok, protoStage. destruct (parseProtocol v) as [b|]; cbn [obind]; eexists; (split; [reflexivity|]); intros m l O S; cbn [good].
  2:{ exists m, x. split; auto. split; auto. split; auto. split; auto. discriminate. }
  destruct (malloc m TProto) as [p m'] eqn:E. destruct (own_alloc _ _ _ _ _ O E) as (O1 & P).
  exists m', (set_proto x p). split; auto. pose proof (grow_proto x p Z0 P) as G.
  split; [apply (own_grows _ [(p, TProto)] x); [exact O1|auto]|]. split; [exact S|]. split; [eauto|].
  intros _. apply grows_tags in G. exact G.
Qed.

Lemma port_ok L set v e x : qsort_ok (sort_nodes L) -> (forall p t, grows [(p, TPorts)] x (set x (Some (p, t)))) ->
  (forall p t, sound x -> ready t -> sound (set x (Some (p, t)))) ->
  exists r, ifgiven e v (parsePorts L) = Ok r /\ stage_ok (portStage L set v) r (some v TPorts) set x.
Proof.
  intros Q G SO. destruct v as [s|]; cbn [ifgiven].
  2:{ eexists. split; [reflexivity|]. intros m l O S. exists m, x. cbn. auto 6. }
  destruct (ports_ready L s Q) as (t0 & t1 & ok & E0 & E1 & R1 & K). unfold stage_ok, portStage. rewrite E0.
  destruct ok.
  - destruct K as (t2 & E2 & R2 & ->). cbn [obind]. eexists. split; [reflexivity|]. intros m l O S. cbn [good].
    destruct (malloc m TPorts) as [p m'] eqn:E. destruct (own_alloc _ _ _ _ _ O E) as (O1 & P).
    rewrite E1. cbn [obind]. rewrite E2. cbn [obind]. exists m', (set x (Some (p, t2))). split; auto.
    split; [apply (own_grows _ [(p, TPorts)] x); [exact O1|auto]|]. split; [auto|]. split; [eauto|]. intros _. specialize (G p t2). apply grows_tags in G. exact G.
  - rewrite K. cbn [obind]. eexists. split; [reflexivity|]. intros m l O S. cbn [good].
    destruct (malloc m TPorts) as [p m'] eqn:E. destruct (own_alloc _ _ _ _ _ O E) as (O1 & P).
    rewrite E1. cbn [obind]. exists m', (set x (Some (p, t1))). split; auto.
    split; [apply (own_grows _ [(p, TPorts)] x); [exact O1|auto]|]. split; [auto|]. split; [eauto|]. discriminate.
Qed.

Lemma cidr_ok L set v e x : all_or v (Forall fits) -> (forall p, 0 < p -> grows [(p, TCidrs)] x (set x p)) ->
  (forall p, sound x -> sound (set x p)) ->
  exists r, ifgiven e v (parseCidrs L) = Ok r /\ stage_ok (cidrStage L set v) r (some v TCidrs) set x.
Proof.
  intros F G SO. destruct v as [argv|]; cbn [ifgiven].
  2:{ eexists. split; [reflexivity|]. intros m l O S. exists m, x. cbn. auto 6. }
  cbn [all_or] in F. destruct (cidrs_total L argv F) as (r0 & E0). unfold parseCidrs in *. unfold stage_ok, cidrStage.
  destruct (zlen argv =? 0).
  { cbn [obind]. eexists. split; [reflexivity|]. intros m l O S. exists m, x. cbn [good]. repeat (split; auto). discriminate. }
  destruct (32 <? zlen argv).
  { cbn [obind]. eexists. split; [reflexivity|]. intros m l O S. exists m, x. cbn [good]. repeat (split; auto). discriminate. }
  rewrite E0. cbn [obind]. destruct r0 as [cs|].
  - eexists. split; [reflexivity|]. intros m l O S. cbn [good].
    destruct (malloc m TCidrs) as [p m'] eqn:E. destruct (own_alloc _ _ _ _ _ O E) as (O1 & P).
    exists m', (set x p). split; auto. specialize (G p P).
    split; [apply (own_grows _ [(p, TCidrs)] x); [exact O1|auto]|]. split; [auto|]. split; [eauto|]. intros _. apply grows_tags in G. exact G.
  - eexists. split; [reflexivity|]. intros m l O S. cbn [good].
    destruct (malloc m TCidrs) as [p m'] eqn:E. destruct (own_alloc _ _ _ _ _ O E) as (O1 & P).
    destruct (own_free1 _ _ _ _ O1) as (m2 & -> & O2). cbn [obind]. exists m2, x. repeat (split; auto). discriminate.
Qed.

Lemma matches_loop l : forall m x p i acc o, x_match x = None -> own m (blk i TItems ++ (p, TMatch) :: o) -> exists r,
  addMatches acc l = Ok r /\ exists m' i', matchLoop m x p i l = Ok (m', set_match x (Some (p, i')), match r with None => false | Some _ => true end) /\
    own m' (blk i' TItems ++ (p, TMatch) :: o) /\ (r <> None -> (i' <> 0 <-> i <> 0 \/ l <> [])).
Proof.
  induction l as [|s l IH]; intros m x p i acc o N O; cbn [addMatches matchLoop].
  - eexists. split; [reflexivity|]. exists m, i. split; auto. split; auto. intros _. tauto.
  - unfold matchAdd. destruct (matchParse_total s) as (e & ->). cbn [obind]. destruct e as [e|it]; cbn [obind].
    + eexists. split; [reflexivity|]. exists m, i. split; auto. split; auto. congruence.
    + unfold realloc. destruct (own_free _ _ _ _ O) as (m1 & -> & O1). cbn [obind].
      destruct (malloc m1 TItems) as [i2 m2] eqn:E. destruct (own_alloc _ _ _ _ _ O1 E) as (O2 & P).
      change ((i2, TItems) :: (p, TMatch) :: o) with ([(i2, TItems)] ++ (p, TMatch) :: o) in O2. rewrite <- (blk_pos i2 TItems P) in O2.
      destruct (IH m2 x p i2 (acc ++ [it]) o N O2) as (r & ER & m3 & i3 & -> & O3 & K).
      exists r. split; [exact ER|]. exists m3, i3. split; auto. split; auto. intros NR. rewrite (K NR).
      split; [intros _; right; discriminate|]. intros _. left. lia.
Qed.
Lemma matches_ok v e x : x_match x = None -> exists r, ifgiven e v (addMatches matchCreate) = Ok r /\
  stage_ok (matchStage v) r (match v with None => [] | Some [] => [TMatch] | Some _ => [TMatch; TItems] end) set_match x.
Proof.
  intros N. destruct v as [l0|]; cbn [ifgiven].
  2:{ eexists. split; [reflexivity|]. intros m l O S. exists m, x. cbn. auto 6. }
  destruct (addMatches_total l0 matchCreate) as (r & E). rewrite E. cbn [obind].
  exists (match r with None => inl e | Some b => inr (Some b) end). split; [destruct r; auto|].
  intros m l O S. cbn [matchStage]. destruct (malloc m TMatch) as [p m1] eqn:EM. destruct (own_alloc _ _ _ _ _ O EM) as (O1 & P).
  destruct (matches_loop l0 m1 x p 0 matchCreate (blocks x ++ l) N O1) as (r' & E' & m2 & i & -> & O2 & K).
  rewrite E in E'. injection E' as <-. pose proof (grow_match x p i N) as G.
  exists m2, (set_match x (Some (p, i))). split; [destruct r; auto|].
  split; [eapply own_grows; [|exact G]; rewrite <- app_assoc; exact O2|]. split; [exact S|]. split; [eauto|].
  intros GR. apply grows_tags in G. rewrite G, map_app. apply Permutation_app_tail. cbn [map snd].
  assert (NR : r <> None) by (intros ->; discriminate). specialize (K NR). unfold blk. destruct (Z.eqb_spec i 0) as [->|NZ].
  - destruct l0; [reflexivity|]. exfalso. apply (proj2 K); [right; discriminate|auto].
  - destruct l0 as [|s0 l0]; [exfalso; apply K in NZ; destruct NZ; congruence|]. apply perm_swap.
Qed.

Definition blank (x : mflow) : Prop := x_name x = 0 /\ x_match x = None.
Lemma stages_ok L a m x l : qsort_ok (sort_nodes L) -> safe_op (Define a) -> (MAX_NAME <=? zlen (a_name a)) = false ->
  own m (blocks x ++ l) -> sound x -> blank x -> x_proto x = 0 -> x_dports x = None -> x_sports x = None -> x_dsts x = 0 -> x_srcs x = 0 ->
  exists m' x', stages L a m x = Ok (m', x', accepted L a) /\ own m' (blocks x' ++ l) /\ sound x' /\
    (accepted L a = true -> x_text x' = a_name a /\
       Permutation (map snd (blocks x')) (tl (tags a) ++ map snd (blocks x))).
Proof.
  intros Q (F1 & F2) MN O S0 (B1 & B2) B3 B4 B5 B6 B7. unfold stages, andthen, accepted, makeFlow. rewrite MN.
  destruct (proto_ok (a_protocols a) "Invalid protocols" x B3) as (r1 & E1 & K1).
  rewrite E1. cbn [obind]. destruct (K1 m l O S0) as (m1 & x1 & -> & O1 & S1 & K & T1). cbn [obind]. clear K1 E1.
  assert (x_name x1 = 0 /\ x_match x1 = None /\ x_dports x1 = None /\ x_sports x1 = None /\ x_dsts x1 = 0 /\ x_srcs x1 = 0) as (C1 & C2 & C4 & C5 & C6 & C7)
    by (destruct K as [->|(v & ->)]; cbn; auto 8).
  destruct r1 as [e|v1]; cbn [good]; [exists m1, x1; repeat (split; auto); discriminate|]. specialize (T1 eq_refl). clear K O S0 B1 B2 B3 B4 B5 B6 B7.
  destruct (port_ok L set_dports (a_dports a) "Invalid dports" x1 Q ltac:(intros; apply grow_dports; auto)
    ltac:(intros p t (S & S') R; split; auto)) as (r2 & E2 & K2).
  rewrite E2. cbn [obind]. destruct (K2 m1 l O1 S1) as (m2 & x2 & -> & O2 & S2 & K & T2). cbn [obind]. clear K2 E2.
  assert (x_name x2 = 0 /\ x_match x2 = None /\ x_sports x2 = None /\ x_dsts x2 = 0 /\ x_srcs x2 = 0) as (D1 & D2 & D5 & D6 & D7)
    by (destruct K as [->|(v & ->)]; cbn; auto 8).
  destruct r2 as [e|v2]; cbn [good]; [exists m2, x2; repeat (split; auto); discriminate|]. specialize (T2 eq_refl). clear K O1 S1 C1 C2 C4 C5 C6 C7.
  destruct (port_ok L set_sports (a_sports a) "Invalid dports" x2 Q ltac:(intros; apply grow_sports; auto)
    ltac:(intros p t (S & S') R; split; auto)) as (r3 & E3 & K3).
  rewrite E3. cbn [obind]. destruct (K3 m2 l O2 S2) as (m3 & x3 & -> & O3 & S3 & K & T3). cbn [obind]. clear K3 E3.
  assert (x_name x3 = 0 /\ x_match x3 = None /\ x_dsts x3 = 0 /\ x_srcs x3 = 0) as (C1 & C2 & C6 & C7)
    by (destruct K as [->|(v & ->)]; cbn; auto 8).
  destruct r3 as [e|v3]; cbn [good]; [exists m3, x3; repeat (split; auto); discriminate|]. specialize (T3 eq_refl). clear K O2 S2 D1 D2 D5 D6 D7.
  destruct (cidr_ok L set_dsts (a_dsts a) "Invalid dsts" x3 F1 ltac:(intros; apply grow_dsts; auto)
    ltac:(intros p S; exact S)) as (r4 & E4 & K4).
  rewrite E4. cbn [obind]. destruct (K4 m3 l O3 S3) as (m4 & x4 & -> & O4 & S4 & K & T4). cbn [obind]. clear K4 E4.
  assert (x_name x4 = 0 /\ x_match x4 = None /\ x_srcs x4 = 0) as (D1 & D2 & D7)
    by (destruct K as [->|(v & ->)]; cbn; auto 8).
  destruct r4 as [e|v4]; cbn [good]; [exists m4, x4; repeat (split; auto); discriminate|]. specialize (T4 eq_refl). clear K O3 S3 C1 C2 C6 C7.
  destruct (cidr_ok L set_srcs (a_srcs a) "Invalid srcs" x4 F2 ltac:(intros; apply grow_srcs; auto)
    ltac:(intros p S; exact S)) as (r5 & E5 & K5).
  rewrite E5. cbn [obind]. destruct (K5 m4 l O4 S4) as (m5 & x5 & -> & O5 & S5 & K & T5). cbn [obind]. clear K5 E5.
  assert (x_name x5 = 0 /\ x_match x5 = None) as (C1 & C2) by (destruct K as [->|(v & ->)]; cbn; auto 8).
  destruct r5 as [e|v5]; cbn [good]; [exists m5, x5; repeat (split; auto); discriminate|]. specialize (T5 eq_refl). clear K O4 S4 D1 D2 D7.
  destruct (matches_ok (a_match a) "Match" x5 C2) as (r6 & E6 & K6).
  rewrite E6. cbn [obind]. destruct (K6 m5 l O5 S5) as (m6 & x6 & -> & O6 & S6 & K & T6). cbn [obind]. clear K6 E6.
  assert (x_name x6 = 0) as D1 by (destruct K as [->|(v & ->)]; cbn; auto 8).
  destruct r6 as [e|v6]; cbn [good]; [exists m6, x6; repeat (split; auto); discriminate|]. specialize (T6 eq_refl). clear K O5 S5 C1 C2.
  unfold nameStage. destruct (malloc m6 TName) as [p m7] eqn:EM. destruct (own_alloc _ _ _ _ _ O6 EM) as (O7 & P).
  pose proof (grow_name x6 p (a_name a) D1 P) as G. exists m7, (set_name x6 p (a_name a)). split; auto.
  split; [apply (own_grows _ [(p, TName)] x6); auto|]. split; [exact S6|]. intros _. split; [reflexivity|].
  apply grows_tags in G. rewrite G, T6, T5, T4, T3, T2, T1. unfold tags. cbn [tl app map snd].
  apply perm_skip. clear. rewrite <- !app_assoc.
  set (A := some _ _). set (B := some _ _). set (C := some _ _). set (D := some _ _). set (E := some _ _).
  set (M := match a_match a with None => _ | _ => _ end). set (R := map snd (blocks x)).
  rewrite (app_assoc E D), (app_assoc (E ++ D) C), (app_assoc (_ ++ C) B), (app_assoc (_ ++ B) A). apply skip_app.
  rewrite <- (app_assoc _ A R). apply skip_app. rewrite <- (app_assoc _ B R). apply skip_app. rewrite <- (app_assoc _ C R). apply skip_app.
  rewrite <- (app_assoc E D R). apply skip_app. reflexivity.
Qed.
