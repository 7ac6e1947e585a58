(** Histories of flow definitions and lookups (C35-C37, C41, C61). *)
From Coq Require Import String Permutation Sorted.
From Verif Require Import Base Lists Cstr_Model Util_Spec Util_Proofs Rangeset_Model Rangeset_Spec
  Rangeset_Proofs Rangeset2_Proofs IpKey_Model IpKey_Spec IpKey_Proofs Match_Model Match_Spec Match_Proofs
  Flow_Model Flow_Spec Cidr_Proofs Flow_Proofs.

Lemma streq_neq a b : streq a b = false <-> a <> b.
Proof. rewrite <- streq_eq. destruct (streq a b); intuition congruence. Qed.

(** ** The array *)
Definition names (l : list frec) : list chars := map f_name l.

Lemma replace_in f l : NoDup (names l) -> forall l', replaceFlow f l = Some l' ->
  In (f_name f) (names l) /\ names l' = names l /\
  forall g, In g l' <-> g = f \/ (In g l /\ f_name g <> f_name f).
Proof.
  induction l as [|h l IH]; intros ND l' H; cbn [replaceFlow] in H; [discriminate|].
  cbn [names map] in ND. apply NoDup_cons_iff in ND. destruct ND as (N1 & N2).
  unfold named in H. destruct (streq (f_name h) (f_name f)) eqn:E.
  - apply streq_eq in E. assert (l' = f :: l) as -> by congruence.
    split; [cbn; auto|]. split; [cbn; congruence|]. intros g. cbn [In]. split.
    + intros [<-|I]; auto. right. split; auto. intros K. apply N1. rewrite E, <- K. apply in_map. auto.
    + intros [->|([->|I] & K)]; auto. congruence.
  - apply streq_neq in E. destruct (replaceFlow f l) as [r|] eqn:ER; [|discriminate].
    assert (l' = h :: r) as -> by congruence. destruct (IH N2 r eq_refl) as (I1 & I2 & I3).
    split; [cbn; auto|]. split; [unfold names in *; cbn [map]; congruence|]. intros g. cbn [In]. rewrite I3. split.
    + intros [<-|[->|(I & K)]]; auto.
    + intros [->|([->|I] & K)]; auto.
Qed.
Lemma replace_none f l : replaceFlow f l = None -> ~ In (f_name f) (names l).
Proof.
  induction l as [|h l IH]; cbn [replaceFlow]; auto. unfold named.
  destruct (streq (f_name h) (f_name f)) eqn:E; [discriminate|]. apply streq_neq in E.
  destruct (replaceFlow f l); [discriminate|]. intros _. cbn. intros [K|K]; auto. apply IH; auto.
Qed.
Lemma insert_in f l : NoDup (names l) -> NoDup (names (insertFlow f l)) /\
  forall g, In g (insertFlow f l) <-> g = f \/ (In g l /\ f_name g <> f_name f).
Proof.
  intros ND. unfold insertFlow. destruct (replaceFlow f l) as [r|] eqn:E.
  - destruct (replace_in f l ND r E) as (_ & -> & H). auto.
  - apply replace_none in E. split.
    + unfold names in *. rewrite map_app. cbn [map]. apply NoDup_Add with (a := f_name f) (l := map f_name l); auto.
      rewrite <- (app_nil_r (map f_name l)) at 1. apply Add_app.
    + intros g. rewrite in_app_iff. cbn [In]. split.
      * intros [I|[<-|[]]]; auto. right. split; auto. intros K. apply E. rewrite <- K. apply in_map. auto.
      * intros [->|(I & _)]; auto.
Qed.
Lemma delete_in n l : NoDup (names l) ->
  let (r, l') := flowDelete l n in
  NoDup (names l') /\ (forall g, In g l' <-> In g l /\ f_name g <> n) /\
  match r with None => ~ In n (names l) | Some f => In f l /\ f_name f = n end /\
  (by_priority l -> by_priority l').
Proof.
  induction l as [|h l IH]; intros ND; cbn [flowDelete].
  - cbn. intuition.
  - cbn [names map] in ND. apply NoDup_cons_iff in ND. destruct ND as (N1 & N2). unfold named.
    destruct (streq (f_name h) n) eqn:E.
    + apply streq_eq in E. split; [auto|]. split; [|split].
      * intros g. cbn [In]. split; [|intros ([->|I] & K); [congruence|auto]].
        intros I. split; auto. intros K. apply N1. rewrite E, <- K. apply in_map. auto.
      * cbn; auto.
      * intros B. inversion B; auto.
    + apply streq_neq in E. specialize (IH N2). destruct (flowDelete l n) as [r l']. destruct IH as (I1 & I2 & I3 & I4).
      split; [|split; [|split]].
      * cbn. apply NoDup_cons; auto. intros K. apply N1. apply in_map_iff in K. destruct K as (x & K1 & K2).
        rewrite <- K1. apply in_map. apply I2 in K2. apply K2.
      * intros g. cbn [In]. rewrite I2. split; [intros [<-|(A & B)]; auto|intros ([->|A] & B); auto].
      * destruct r as [f|]; cbn; [intuition|]. intros [K|K]; auto.
      * intros B. inversion B as [|x y B1 B2]; subst. apply SSorted_cons; [apply I4; exact B1|]. rewrite Forall_forall in *.
        intros x Hx. apply I2 in Hx. apply B2. apply Hx.
Qed.
Lemma find_name l n : NoDup (names l) ->
  match findName l n with None => ~ In n (names l) | Some f => In f l /\ f_name f = n end.
Proof.
  induction l as [|h l IH]; intros ND; cbn [findName]; [cbn; auto|].
  cbn [names map] in ND. apply NoDup_cons_iff in ND. destruct ND as (N1 & N2). unfold named.
  destruct (streq (f_name h) n) eqn:E.
  - apply streq_eq in E. cbn; auto.
  - apply streq_neq in E. specialize (IH N2). destruct (findName l n); cbn; [intuition|]. intros [K|K]; auto.
Qed.

(** ** Histories *)
Definition Inv (L : libc) (set : list frec) (now : chars -> option fargs) : Prop :=
  by_priority set /\ NoDup (names set) /\
  (forall f, In f set -> exists a, now (f_name f) = Some a /\ makeFlow L a = Ok (inr f)) /\
  (forall n a, now n = Some a -> a_name a = n /\ exists f, In f set /\ makeFlow L a = Ok (inr f)).

Lemma inv_nil L : Inv L [] (fun _ => None).
Proof. split; [constructor|]. split; [constructor|]. split; [intros f []|discriminate]. Qed.

Lemma Perm_names l l' : Permutation l l' -> NoDup (names l) -> NoDup (names l').
Proof. intros P. apply Permutation_NoDup. apply Permutation_map. auto. Qed.

Lemma inv_define L set now a e set' : libc_ok L -> Inv L set now -> flowDefine L set a = Ok (e, set') ->
  match e with
  | Some _ => set' = set
  | None => Inv L set' (fun n => if streq n (a_name a) then Some a else now n)
  end.
Proof.
  intros (_ & _ & HS) (I1 & I2 & I3 & I4) H. unfold flowDefine in H.
  destruct (makeFlow L a) as [[er|f]| | |] eqn:EM; cbn [obind] in H; try discriminate.
  - assert (e = Some er /\ set' = set) as (-> & ->) by (split; congruence). auto.
  - unfold sortFlows in H. destruct (comparable (insertFlow f set)); cbn [obind] in H; [|discriminate].
    assert (e = None /\ set' = sort_flows L (insertFlow f set)) as (-> & ->) by (split; congruence).
    destruct (HS (insertFlow f set)) as (P & B). destruct (insert_in f set I2) as (J1 & J2).
    destruct (makeFlow_fields _ _ _ EM) as (FN & _).
    split; [auto|]. split; [eapply Perm_names; eauto|].
    assert (IE : forall g, In g (sort_flows L (insertFlow f set)) <-> g = f \/ (In g set /\ f_name g <> f_name f)).
    { intros g. rewrite <- J2. split; apply Permutation_in; auto using Permutation_sym. }
    split.
    + intros g G. apply IE in G. destruct G as [->|(G & N)].
      * rewrite FN, streq_refl. eauto.
      * destruct (streq (f_name g) (a_name a)) eqn:E; [apply streq_eq in E; congruence|]. auto.
    + intros n b. destruct (streq n (a_name a)) eqn:E.
      * apply streq_eq in E. intros K. assert (b = a) as -> by congruence. split; auto. exists f. split; auto. apply IE. auto.
      * apply streq_neq in E. intros K. destruct (I4 _ _ K) as (A1 & g & A2 & A3). split; auto. exists g. split; auto.
        apply IE. right. split; auto. destruct (makeFlow_fields _ _ _ A3) as (GN & _). congruence.
Qed.

Lemma inv_delete L set now d : Inv L set now ->
  let (r, set') := flowDelete set d in
  Inv L set' (fun n => if streq n d then None else now n) /\
  match r with None => None | Some f => Some (f_ref f, f_udpencap f) end =
  match now d with None => None | Some a => Some (a_ref a, a_udpencap a) end.
Proof.
  intros (I1 & I2 & I3 & I4). pose proof (delete_in d set I2) as H. destruct (flowDelete set d) as [r set'].
  destruct H as (J1 & J2 & J3 & J4). split.
  - split; [auto|]. split; [auto|]. split.
    + intros f F. apply J2 in F. destruct F as (F & N). apply streq_neq in N. rewrite N. auto.
    + intros n a. destruct (streq n d) eqn:E; [discriminate|]. apply streq_neq in E. intros K.
      destruct (I4 _ _ K) as (A1 & g & A2 & A3). split; auto. exists g. split; auto. apply J2. split; auto.
      destruct (makeFlow_fields _ _ _ A3) as (GN & _). congruence.
  - destruct r as [f|].
    + destruct J3 as (F & N). destruct (I3 f F) as (a & A1 & A2). rewrite N in A1. rewrite A1.
      destruct (makeFlow_fields _ _ _ A2) as (_ & _ & R & U & _). congruence.
    + destruct (now d) as [a|] eqn:E; auto. exfalso. destruct (I4 _ _ E) as (A1 & g & A2 & A3).
      destruct (makeFlow_fields _ _ _ A3) as (GN & _). apply J3. rewrite <- A1, <- GN. apply in_map. auto.
Qed.

Lemma run_inv L ops : libc_ok L -> forall set now set' ans, Inv L set now -> run L set ops = Ok (set', ans) ->
  Inv L set' (in_force now ops ans) /\ deletions_ok now ops ans.
Proof.
  intros HL. induction ops as [|[a|d] ops IH]; intros set now set' ans I H; cbn [run] in H.
  - assert (set' = set /\ ans = []) as (-> & ->) by (split; congruence). cbn. auto.
  - destruct (flowDefine L set a) as [[e s1]| | |] eqn:ED; cbn [obind] in H; try discriminate.
    destruct (run L s1 ops) as [[s2 l]| | |] eqn:ER; cbn [obind] in H; try discriminate.
    assert (set' = s2 /\ ans = Defined e :: l) as (-> & ->) by (split; congruence).
    pose proof (inv_define L set now a e s1 HL I ED) as K. destruct e as [e|]; cbn [in_force deletions_ok].
    + subst s1. eapply IH; eauto.
    + eapply IH; eauto.
  - pose proof (inv_delete L set now d I) as K. destruct (flowDelete set d) as [r s1]. destruct K as (K1 & K2).
    destruct (run L s1 ops) as [[s2 l]| | |] eqn:ER; cbn [obind] in H; try discriminate.
    match type of H with Ok (_, ?x :: _) = _ => assert (set' = s2 /\ ans = x :: l) as (-> & ->) by (split; congruence) end.
    cbn [in_force deletions_ok]. destruct (IH _ _ _ _ K1 ER) as (R1 & R2). auto.
Qed.

Lemma map_semantics L ops set ans : libc_ok L -> run L [] ops = Ok (set, ans) ->
  NoDup (map f_name set) /\ deletions_ok (fun _ => None) ops ans /\
  (forall n, match findName set n with None => None | Some f => Some (f_ref f, f_udpencap f) end =
             match current ops ans n with None => None | Some a => Some (a_ref a, a_udpencap a) end) /\
  (forall f, In f set <-> exists a, current ops ans (a_name a) = Some a /\ makeFlow L a = Ok (inr f)).
Proof.
  intros HL H. destruct (run_inv L ops HL [] _ set ans (inv_nil L) H) as (I & D).
  destruct I as (I1 & I2 & I3 & I4). split; [exact I2|]. split; [exact D|]. fold (current ops ans) in *. split.
  - intros n. pose proof (find_name set n I2) as F. destruct (findName set n) as [f|].
    + destruct F as (F & N). destruct (I3 f F) as (a & A1 & A2). rewrite N in A1. rewrite A1.
      destruct (makeFlow_fields _ _ _ A2) as (_ & _ & R & U & _). congruence.
    + destruct (current ops ans n) as [a|] eqn:E; auto. exfalso. destruct (I4 _ _ E) as (A1 & g & A2 & A3).
      destruct (makeFlow_fields _ _ _ A3) as (GN & _). apply F. rewrite <- A1, <- GN. apply in_map. auto.
  - intros f. split.
    + intros F. destruct (I3 f F) as (a & A1 & A2). exists a. split; auto.
      destruct (makeFlow_fields _ _ _ A2) as (N & _). congruence.
    + intros (a & A1 & A2). destruct (I4 _ _ A1) as (_ & g & G1 & G2). congruence.
Qed.

(** ** Lookup *)
Definition hit (v : verdict) : bool := match v with NoMatch => false | _ => true end.

Lemma lookup_first ping set k eth pkt (P : frec -> Prop) : by_priority set ->
  (forall f, In f set -> exists v, flowMatch ping k f eth pkt = Ok v /\ (hit v = true <-> P f)) ->
  forall u, exists r u', flowLookup ping set k eth pkt u = Ok (r, u') /\
    (r <> 0 -> exists f, In f set /\ f_ref f = r /\ P f /\
       forall g, In g set -> f_ref g <> 0 -> P g -> f_priority g <= f_priority f) /\
    (r = 0 -> forall g, In g set -> P g -> f_ref g = 0).
Proof.
  induction set as [|f set IH]; intros B H u; cbn [flowLookup].
  - exists 0, u. split; auto. split; [congruence|intros _ g []].
  - destruct (H f (or_introl eq_refl)) as (v & -> & E). cbn [obind].
    inversion B as [|x y B1 B2]; subst.
    assert (H' : forall g, In g set -> exists v, flowMatch ping k g eth pkt = Ok v /\ (hit v = true <-> P g)) by (intros; apply H; cbn; auto).
    destruct (match v with NoMatch => 0 | _ => f_ref f end =? 0) eqn:Z0.
    + specialize (IH B1 H' (match v with Match => f_udpencap f | _ => u end)).
      destruct IH as (r & u' & R1 & R2 & R3). exists r, u'. split; auto.
      assert (NF : P f -> f_ref f = 0) by (intros Pf; apply E in Pf; destruct v; [discriminate|lia|lia]).
      split.
      * intros N. destruct (R2 N) as (g & G1 & G2 & G3 & G4). exists g. split; [cbn; auto|]. split; auto. split; auto.
        intros g' [<-|G'] N' P'; [apply NF in P'; congruence|]. auto.
      * intros -> g [<-|G] Pg; auto.
    + exists (f_ref f), (match v with Match => f_udpencap f | _ => u end).
      assert (HV : hit v = true /\ f_ref f <> 0) by (destruct v; [discriminate| |]; cbn; split; auto; lia).
      destruct HV as (HV & NZ). split; [destruct v; auto; discriminate|]. split.
      * intros _. exists f. split; [cbn; auto|]. split; auto. split; [apply E; auto|].
        intros g [<-|G] _ _; [lia|]. rewrite Forall_forall in B2. apply B2. auto.
      * congruence.
Qed.

(** The fields of a key *)
Lemma key_fields f : flow_ok f -> kproto (mk_flow_key f) = fl_proto f /\
  ksport (mk_flow_key f) = port_num (fl_sport f) /\ kdport (mk_flow_key f) = port_num (fl_dport f).
Proof.
  intros (_ & _ & _ & (LS & _) & (LD & _)). unfold kproto, ksport, kdport, mk_flow_key, port_num, be16. cbn [k_id].
  destruct (fl_sport f) as [|a [|b [|]]]; try discriminate. destruct (fl_dport f) as [|c [|d [|]]]; try discriminate.
  cbn [app nth skipn firstn]. lia.
Qed.

Lemma match_one a r f fl eth data l4 : agrees a r f -> flow_ok fl ->
  l4_packet eth data (fl_proto fl) (fl_src fl) (fl_dst fl) l4 -> ports_at data l4 (fl_sport fl) (fl_dport fl) ->
  (r_match r <> None -> complete_plus data (fl_proto fl) l4) ->
  exists v, flowMatch false (mk_flow_key fl) f eth (Some data) = Ok v /\
    (hit v = true <-> accepts_packet r fl data l4).
Proof.
  intros (_ & _ & _ & _ & AP & AD & AS & ADS & ASS & AM) FK P4 PA C.
  destruct (key_fields fl FK) as (K1 & K2 & K3). pose proof FK as (BS & BD & PP & _).
  unfold flowMatch, accepts_packet, accepts_addr. rewrite K1, K2, K3.
  change (k_dst (mk_flow_key fl)) with (fl_dst fl). change (k_src (mk_flow_key fl)) with (fl_src fl).
  specialize (ADS _ BD). specialize (ASS _ BS). specialize (AP (fl_proto fl)).
  destruct (inCidrs (f_dsts f) (fl_dst fl)); cbn [negb].
  2:{ exists NoMatch. split; auto. cbn. split; [discriminate|]. intros ((X & _) & _). apply ADS in X. discriminate. }
  destruct (inCidrs (f_srcs f) (fl_src fl)); cbn [negb].
  2:{ exists NoMatch. split; auto. cbn. split; [discriminate|]. intros ((_ & X) & _). apply ASS in X. discriminate. }
  cbn [andb].
  destruct (match f_protocols f with None => true | Some l => existsb (Z.eqb (fl_proto fl)) l end); cbn [negb].
  2:{ exists NoMatch. split; auto. cbn. split; [discriminate|]. intros (_ & X & _). apply AP in X. discriminate. }
  destruct (AD (port_num (fl_dport fl))) as (bd & -> & ED). cbn [obind].
  destruct bd; cbn [negb].
  2:{ exists NoMatch. split; auto. cbn. split; [discriminate|]. intros (_ & _ & X & _). apply ED in X. discriminate. }
  destruct (AS (port_num (fl_sport fl))) as (bs & -> & ES). cbn [obind].
  destruct bs; cbn [negb].
  2:{ exists NoMatch. split; auto. cbn. split; [discriminate|]. intros (_ & _ & _ & X & _). apply ES in X. discriminate. }
  assert (M : exists b, match f_match f with Some m => matchMatches (Some m) eth (fl_proto fl) data | None => Ok true end = Ok b /\
                (b = true <-> all_or (r_match r) (fun es => accepts es (fl_proto fl) data l4))).
  { unfold match_agree in AM. destruct (f_match f) as [m|], (r_match r) as [es|]; try contradiction.
    - specialize (C ltac:(discriminate)). unfold complete_plus in C. apply AM; auto.
      + eapply l4_found; eauto.
        * destruct PP as [-> |[-> | ->]]; reflexivity.
        * destruct PA as (_ & _ & _ & _ & H). lia.
      + intros ->. lia.
    - exists true. cbn. tauto. }
  destruct M as (b & EB & HB). rewrite EB. cbn [obind].
  exists (if b then Match else NoMatch). split; auto. destruct b; cbn [hit].
  - split; auto. intros _. repeat split; [apply ADS|apply ASS|apply AP|apply ED|apply ES|apply HB]; auto.
  - split; [discriminate|]. intros (_ & _ & _ & _ & X). apply HB in X. discriminate.
Qed.

Lemma classification L ops set ans (R : chars -> rule) fuel eth data fl l4 u :
  libc_ok L -> run L [] ops = Ok (set, ans) ->
  (forall n a, current ops ans n = Some a -> means L a (R n)) ->
  flow_ok fl -> l4_packet eth data (fl_proto fl) (fl_src fl) (fl_dst fl) l4 ->
  ports_at data l4 (fl_sport fl) (fl_dport fl) ->
  (forall n a, current ops ans n = Some a -> r_match (R n) <> None -> complete_plus data (fl_proto fl) l4) ->
  exists k r u', getHashKey (S fuel) 0 eth data = Ok (Some (0, k, None)) /\
    flowLookup false set k eth (Some data) u = Ok (r, u') /\
    (r <> 0 -> exists n a, current ops ans n = Some a /\ a_ref a = r /\ accepts_packet (R n) fl data l4 /\
       forall n' a', current ops ans n' = Some a' -> a_ref a' <> 0 -> accepts_packet (R n') fl data l4 ->
         a_priority a' <= a_priority a) /\
    (r = 0 -> forall n' a', current ops ans n' = Some a' -> accepts_packet (R n') fl data l4 -> a_ref a' = 0).
Proof.
  intros HL H M FK P4 PA C. destruct (run_inv L ops HL [] _ set ans (inv_nil L) H) as ((I1 & I2 & I3 & I4) & _).
  fold (current ops ans) in *.
  exists (mk_flow_key fl).
  destruct (lookup_first false set (mk_flow_key fl) eth (Some data)
    (fun f => accepts_packet (R (f_name f)) fl data l4) I1) with (u := u) as (r & u' & E & A & B).
  { intros f F. destruct (I3 f F) as (a & A1 & A2). pose proof (M _ _ A1) as MM.
    destruct (makeFlow_ok L a _ HL MM) as (f' & EF & AG). assert (f' = f) by congruence. subst f'.
    eapply match_one; eauto. }
  exists r, u'. split.
  { apply plain_key; auto. exists l4. auto. }
  split; auto.
  assert (FA : forall n a, current ops ans n = Some a -> exists f, In f set /\ f_name f = n /\ f_ref f = a_ref a /\ f_priority f = a_priority a).
  { intros n a K. destruct (I4 _ _ K) as (AN & f & F1 & F2). exists f. split; auto.
    destruct (makeFlow_fields _ _ _ F2) as (X1 & X2 & X3 & _). repeat split; congruence. }
  split.
  - intros N. destruct (A N) as (f & F1 & F2 & F3 & F4). destruct (I3 f F1) as (a & A1 & A2).
    destruct (makeFlow_fields _ _ _ A2) as (X1 & X2 & X3 & _).
    exists (f_name f), a. split; auto. split; [congruence|]. split; auto.
    intros n' a' K1 K2 K3. destruct (FA _ _ K1) as (g & G1 & G2 & G3 & G4).
    rewrite <- X2, <- G4. apply F4; auto; congruence.
  - intros Z n' a' K1 K3. destruct (FA _ _ K1) as (g & G1 & G2 & G3 & G4). rewrite <- G3. apply B; auto. rewrite G2. auto.
Qed.
