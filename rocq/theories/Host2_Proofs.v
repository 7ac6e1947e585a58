(** The host (C79): the tables that load-balancers see, and starts. *)
From Coq Require Import String.
From Verif Require Import Base Lists Cstr_Model Util_Proofs Maglev_Model Config_Model Maglev_Spec Config_Proofs MaglevThms_Proofs Shm_Model Shm_Spec Shm_Proofs Shm2_Proofs Shm3_Proofs
  Flow_Model FlowLb_Model Lb_Model Lb_Spec Start_Model Start_Spec Start_Proofs Start2_Proofs Start4_Proofs Lines_Model Lines_Spec Lines_Proofs Host_Model Host_Spec.
From Verif Require Lines2_Proofs Frag_Model.
From Verif Require Import Opt_Model Opt_Spec Opt_Proofs.
Notation linv := Lines2_Proofs.inv.

(** ** Tables *)
Lemma loads_all d : forall l off, (forall i y, znth l i = Some y -> lds d (off + 4 * i) = Ok y) -> loads d off (length l) = l.
Proof.
  induction l as [|x l IH]; intros off H; cbn [length loads]; [reflexivity|].
  pose proof (H 0 x eq_refl) as H0. rewrite Z.mul_0_r, Z.add_0_r in H0. rewrite H0. f_equal. apply IH. intros i y Y.
  replace (off + 4 + 4 * i) with (off + 4 * (i + 1)) by lia. apply H. pose proof (znth_some_range _ _ _ _ Y). rewrite znth_consS by lia. exact Y.
Qed.
Definition bare (s : mag) : mag := mkMag (mM s) (mN s) (mlookup s) [] (mactive s).
Lemma decode f t s vw : held f t -> table_of t s -> viewed t vw -> tableAt vw f = bare s.
Proof.
  intros (s0 & s' & IA & H0 & HM & RH & HF & SZ) T (s1 & V1 & ->). rewrite (table_same t s' s0 s H0 RH T) in *.
  assert (s1 = s0) by congruence. subst s1. destruct (held_facts t s0 s' IA H0 RH HM) as (F1 & F2 & _). rewrite <- F1, <- F2.
  apply (proj1 (holds_iff _ _ _)) in HF. destruct HF as (len & rest & -> & S). pose proof (fine_of (d_own t) s' S SZ) as FN.
  destruct SZ as (_ & _ & _ & _ & A5 & A6 & A7). destruct S as (S1 & S2 & S3 & S4).
  destruct (view_fields (mM s') (mN s') A5 A6 A7) as (VM & VN & VL & VA & _). unfold tableAt, bare. rewrite VM, VN. f_equal.
  - replace (Z.to_nat (mM s')) with (length (mlookup s')) by (unfold zlen in S1; lia). apply loads_all. intros i y Y.
    exact (get_look (d_own t) len (mM s') (mN s') (mperm s') rest A5 A6 A7 _ _ _ _ FN (proj2 (aget_ok _ _ _ _) Y)).
  - replace (Z.to_nat (mN s')) with (length (mactive s')) by (unfold zlen in S4; lia). apply loads_all. intros i y Y.
    exact (get_act (d_own t) len (mM s') (mN s') (mperm s') rest A5 A6 A7 S2 S3 _ _ _ _ FN (proj2 (aget_ok _ _ _ _) Y)).
Qed.
Lemma held_ok f t s : held f t -> table_of t s -> Lb_Spec.table_ok (bare s).
Proof.
  intros (s0 & s' & IA & H0 & HM & RH & HF & SZ) T. rewrite (table_same t s' s0 s H0 RH T) in *.
  destruct (held_facts t s0 s' IA H0 RH HM) as (_ & _ & _ & MB & _). assert (R : reached (d_m t) (d_n t) (d_rand t) (d_cmds t) s') by (exists s0; auto).
  destruct (slots_active _ _ _ _ _ IA R) as (L & A & B). unfold Lb_Spec.table_ok, bare. cbn [mM mlookup mactive]. split; [lia|]. split; [exact L|].
  intros l I. apply In_znth in I. destruct I as (c & C). pose proof (znth_some_range _ _ _ _ C) as RG. pose proof (zlen_nonneg _ (mactive s')).
  destruct (existsb (fun fw => 0 <=? fw) (mactive s')) eqn:E.
  - apply existsb_exists in E. destruct E as (fw & I & P). apply In_znth in I. destruct I as (j & J).
    assert (EX : exists j, is_active s' j) by (exists j, fw; split; [exact J|lia]).
    destruct (A EX c ltac:(lia)) as (i & I1 & y & I2 & I3). assert (i = l) by congruence. subst i.
    apply znth_some_range in I2. lia.
  - assert (N2 : forall j, ~ is_active s' j).
    { intros j (fw & J1 & J2). apply znth_In in J1. rewrite (proj2 (existsb_exists _ _)) in E; [discriminate|]. exists fw. split; [exact J1|lia]. }
    rewrite (B N2 c ltac:(lia)) in C. injection C as <-. lia.
Qed.
Lemma bare_marks none s hash x : marks none s hash x -> mark_or none (table_mark (bare s) hash) = x.
Proof.
  intros (y & (l & L1 & L2) & ->). unfold table_mark, bare. cbn [mM mlookup mactive]. rewrite L1. destruct L2 as [(L2 & ->)|(L2 & L3)].
  - replace (l <? 0) with true by lia. reflexivity.
  - replace (l <? 0) with false by lia. rewrite L3. destruct (y <? 0); reflexivity.
Qed.
(** What is in a region *)
Lemma region_table fs tab rd r s : linv fs (mkW tab rd) -> has_table tab (rd r) s -> memOf fs r = bare s /\ Lb_Spec.table_ok (memOf fs r).
Proof.
  intros (_ & _ & I3 & I4) (t & T & H). specialize (I4 r). cbn [w_read w_tab] in *.
  assert (X : exists i vw, s_map fs r = Some (i, vw) /\ viewed t vw /\ held (s_data fs i) t).
  { destruct H as [E|(x & E & X)]; rewrite E in I4.
    - destruct I4 as (i & vw & A & B & _ & _ & C). eauto.
    - destruct I4 as (t' & i & vw & A & B & C & D). assert (t' = t) by congruence. subst t'. specialize (I3 x). rewrite X in I3. destruct I3 as (j & J & HH).
      assert (j = i) by congruence. subst j. eauto. }
  destruct X as (i & vw & M & V & HF). unfold memOf. rewrite M, (decode _ t s vw HF T V). split; [reflexivity|]. apply (held_ok _ t s HF T).
Qed.

(** ** Objects that are mapped *)
Lemma object_fun n x y : object n x -> object n y -> x = y.
Proof. intros A B. apply name_object in A, B. congruence. Qed.
Lemma lines_ext fs tab rd rd' : linv fs (mkW tab rd) -> (forall k, rd k = rd' k) -> linv fs (mkW tab rd').
Proof. intros (I1 & I2 & I3 & I4) E. split; [exact I1|]. split; [exact I2|]. split; [exact I3|]. intros k. cbn [w_read w_tab] in *. rewrite <- E. apply I4. Qed.
(** The names stay as they are. *)
Definition same_names (fs fs' : shmfs) : Prop := s_ino fs' = s_ino fs /\ s_data fs' = s_data fs.
Lemma same_open fs fs' n : same_names fs fs' -> openShm fs' n = openShm fs n.
Proof. intros (A & B). unfold openShm. rewrite A, B. reflexivity. Qed.
Lemma mapped_some fs tab rd r n x t : linv fs (mkW tab rd) -> object n x -> tab x = Some t ->
  exists fs', mapped fs r (Some n) = Ok fs' /\ linv fs' (mkW tab (at_proc rd r (Live x))) /\ same_names fs fs'.
Proof.
  intros I O T. pose proof (Lines2_Proofs.inv_open _ _ x n I O) as OP. cbn [w_tab] in OP. rewrite T in OP. destruct OP as (i & HI & OP & HF).
  destruct (held_view _ _ HF) as (vw & MV & VW). unfold mapped, mapTable. rewrite OP, MV. cbn [obind fst]. eexists. split; [reflexivity|]. split; [|split; reflexivity].
  exact (Lines2_Proofs.inv_map _ _ r x t i vw I T HI VW).
Qed.
Lemma mapped_none fs tab rd r n : linv fs (mkW tab rd) -> (forall x, object n x -> tab x = None) ->
  openShm fs n = None /\ exists fs', mapped fs r (Some n) = Ok fs' /\ linv fs' (mkW tab (at_proc rd r Nobody)) /\ same_names fs fs'.
Proof.
  intros I O. assert (OP : openShm fs n = None).
  { destruct (shmName n) as [x|] eqn:N; [|unfold openShm; rewrite N; reflexivity]. apply name_object in N. pose proof (Lines2_Proofs.inv_open _ _ x n I N) as OP.
    cbn [w_tab] in OP. rewrite (O x N) in OP. exact OP. }
  split; [exact OP|]. unfold mapped, mapTable. rewrite OP. cbn [obind fst]. eexists. split; [reflexivity|]. split; [|split; reflexivity]. exact (Lines2_Proofs.inv_unmap _ _ r I).
Qed.
(** A table is mapped, or not, by a process that keeps it. *)
Definition tab_at (tab : chars -> option made) (n : option chars) : option reader :=
  match n with
  | None => None
  | Some n => match shmName n with
              | None => Some Nobody
              | Some x => match tab x with None => Some Nobody | Some _ => Some (Live x) end
              end
  end.
Lemma mapped_any fs tab rd r n : linv fs (mkW tab rd) ->
  exists fs', mapped fs r n = Ok fs' /\ linv fs' (mkW tab (match tab_at tab n with None => rd | Some v => at_proc rd r v end)) /\ same_names fs fs'.
Proof.
  intros I. destruct n as [n|]; [|exists fs; split; [reflexivity|split; [exact I|split; reflexivity]]]. cbn [tab_at].
  destruct (shmName n) as [x|] eqn:N.
  - apply name_object in N. destruct (tab x) as [t|] eqn:T; [apply (mapped_some fs tab rd r n x t I N T)|].
    apply (mapped_none fs tab rd r n I). intros y Y. rewrite <- (object_fun _ _ _ N Y). exact T.
  - apply (mapped_none fs tab rd r n I). intros y Y. apply name_object in Y. congruence.
Qed.
(** What a start sees *)
Lemma seen_some fs tab rd region n x t : linv fs (mkW tab rd) -> object n x -> tab x = Some t -> seen fs region n = Some (region n, d_own t).
Proof.
  intros I O T. pose proof (Lines2_Proofs.inv_open _ _ x n I O) as OP. cbn [w_tab] in OP. rewrite T in OP. destruct OP as (i & HI & OP & HF).
  unfold seen. rewrite OP. destruct HF as (s0 & s & _ & _ & _ & _ & (len & rest & -> & _) & (OI & _)).
  change 0 with (4 * 0). rewrite (lds_word _ 0 (d_own t)); [reflexivity|reflexivity|exact OI].
Qed.
Lemma seen_none fs tab rd region n : linv fs (mkW tab rd) -> (forall x, object n x -> tab x = None) -> seen fs region n = None.
Proof. intros I O. unfold seen. destruct (mapped_none fs tab rd 0 n I O) as (-> & _). reflexivity. Qed.

(** ** Values *)
Lemma value_at opts its tail i o n v : Opt_Spec.table_ok opts -> Forall (item_ok opts) its -> (forall o, In o opts -> p_req o = false) -> znth opts i = Some o -> p_name o = str n ->
  value_of opts its n v -> valueAt opts (line its tail) i = v.
Proof.
  intros T F R Z N V. destruct (Start_Proofs.line_vals opts its tail T F R) as (vals & P & L & VV). unfold valueAt. rewrite P, (VV i o n v Z N V). reflexivity.
Qed.
Lemma lb_no E i its tail tn tier : Forall (item_ok lbOpts) its -> value_of lbOpts its "tshm" (Some tn) -> value_of lbOpts its "lbshm" tier ->
  e_shm E tn = None \/ tierOf E tier = None -> cmdLb E i (line its tail) = Ok ([], Exited).
Proof.
  intros F Vt Vl HT. destruct lb_table as [TO RQ]. destruct (Start_Proofs.line_vals lbOpts its tail TO F RQ) as (vals & P & L & V).
  destruct (lb_vals _ _ _ P) as (its' & tail' & v0 & mtu & tun & reasm & encap & tshm & lbshm & notargets & mode & queue & qlen & ftshm & size & buckets & frag & ttl & v16 & _ & _ & _ & -> & _).
  pose proof (V 5 _ _ _ eq_refl eq_refl Vt) as G5. cbn in G5. injection G5 as ->.
  pose proof (V 6 _ _ _ eq_refl eq_refl Vl) as G6. cbn in G6. injection G6 as ->. unfold cmdLb. rewrite P. cbn [obind]. destruct HT as [->| ->]; [reflexivity|].
  destruct (e_shm E tn) as [[? ?]|]; reflexivity.
Qed.
Lemma flowlb_no E i its tail tier : Forall (item_ok flowlbOpts) its -> value_of flowlbOpts its "lbshm" tier ->
  tierOf E tier = None -> cmdFlowLb E i (line its tail) = Ok ([], Exited).
Proof.
  intros F Vl HT. destruct flowlb_table as [TO RQ]. destruct (Start_Proofs.line_vals flowlbOpts its tail TO F RQ) as (vals & P & L & V).
  destruct (flowlb_vals _ _ _ P) as (its' & tail' & v0 & lbshm & mtu & tun & reasm & ping & notargets & nolb & mode & queue & qlen & ftshm & size & buckets & frag & ttl & v16 & _ & _ & _ & -> & _).
  pose proof (V 1 _ _ _ eq_refl eq_refl Vl) as G6. cbn in G6. injection G6 as ->. unfold cmdFlowLb. rewrite P. cbn [obind]. rewrite HT. reflexivity.
Qed.
