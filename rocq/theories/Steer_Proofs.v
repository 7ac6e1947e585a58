(** All fragments of a datagram get the same decision (C13). *)
From Verif Require Import Base Lists IpKey_Model IpKey_Spec IpKey_Proofs IpKey2_Proofs Maglev_Model Flow_Model FlowLb_Model FlowLb_Spec FlowLb4_Proofs Lb_Model Lb_Spec
  Lb_Proofs Lb3_Proofs Steer_Spec Fwmark_Spec.
From Verif Require Frag_Model Frag_Spec Frag_Proofs Frag3_Proofs.

(** ** What the hash key of a fragment does not depend on *)
Lemma rdn_len data o n l : rdn data o n = Ok l -> length l = n.
Proof.
  unfold rdn. destruct ((0 <=? o) && (o + Z.of_nat n <=? zlen data)) eqn:E; [|discriminate]. intros H. injection H as <-.
  apply firstn_length_le. rewrite skipn_length. apply andb_true_iff in E. destruct E as (A & B). apply Z.leb_le in A, B.
  unfold zlen in B. lia.
Qed.
Definition shape (r : res) (f : Z * list Z * list Z * option (list Z)) : Prop :=
  match r with
  | None => True
  | Some (rc, k, fi) => let '(b, s, d, i) := f in Z.land rc 3 = b /\ k_src k = s /\ k_dst k = d /\ fi = i
  end.
Lemma ports_shape swap data k enc rc proto ports fi r : rc = 0 \/ rc = 1 \/ rc = 8 ->
  ports_tail swap data k enc rc proto ports fi = Ok r -> shape r (Z.land rc 3, k_src k, k_dst k, fi).
Proof.
  intros R H. destruct r as [[[r' k'] f']|]; [|exact I]. destruct (ports_tail_inv _ _ _ _ _ _ _ _ _ _ _ H) as (A & B & C & D).
  cbn [shape]. split; [|auto]. destruct R as [->|[->| ->]]; destruct D as [->| ->]; reflexivity.
Qed.
Ltac same := let H := fresh in intros H; injection H as <-; cbn; auto.
Lemma key_shape fuel eth data : exists f, (forall enc r, getHashKey fuel enc eth data = Ok r -> shape r f) /\
  let '(b, s, d, i) := f in b <> 0 -> length s = 16%nat /\ length d = 16%nat /\ (b = 2 \/ i <> None) /\ (forall id, i = Some id -> length id = 8%nat) /\
    forall enc rc k fi, getHashKey fuel enc eth data = Ok (Some (rc, k, fi)) -> Z.land rc 1 = 0 -> length (k_id k) = 8%nat.
Proof.
  unfold getHashKey. destruct (eth =? 2048).
  { unfold getHashKeyIpv4. destruct (negb (in_bounds 0 20 (zlen data))).
    { exists (0, [], [], None). split; [intros enc r; same|congruence]. }
    destruct (aget data 0) as [b0| | |]; cbn [obind]; try (exists (0, [], [], None); split; [intros enc r; discriminate|congruence]).
    destruct (b0 mod 16 <? 5). { exists (0, [], [], None). split; [intros enc r; same|congruence]. }
    destruct (rdn data 6 2) as [fo| | |]; cbn [obind]; try (exists (0, [], [], None); split; [intros enc r; discriminate|congruence]).
    destruct (rdn data 12 4) as [s| | |] eqn:ES; cbn [obind]; try (exists (0, [], [], None); split; [intros enc r; discriminate|congruence]).
    destruct (rdn data 16 4) as [d| | |] eqn:ED; cbn [obind]; try (exists (0, [], [], None); split; [intros enc r; discriminate|congruence]).
    destruct (rdn data 4 2) as [id| | |] eqn:EI; cbn [obind]; try (exists (0, [], [], None); split; [intros enc r; discriminate|congruence]).
    destruct (aget data 9) as [p| | |]; cbn [obind]; try (exists (0, [], [], None); split; [intros enc r; discriminate|congruence]).
    apply rdn_len in ES, ED, EI.
    assert (LM : forall a, length a = 4%nat -> length (map4 a) = 16%nat) by (intros a L; unfold map4; rewrite !app_length, L; auto).
    assert (LI : length (id_bytes id) = 8%nat) by (unfold id_bytes; rewrite app_length, repeat_length, EI; auto).
    set (fr := negb (Z.land (be16 fo) 16383 =? 0)). set (fi := Z.land (be16 fo) 8191 =? 0).
    destruct (fr && negb fi).
    { exists (2, map4 s, map4 d, None). split; [intros enc r; same|]. intros _. split; [auto|]. split; [auto|]. split; [first [left; reflexivity|right; discriminate]|]. split; [congruence|].
      intros enc rc k f H _. injection H as <- <- <-. exact LI. }
    destruct fr.
    - exists (1, map4 s, map4 d, Some (id_bytes id)). split.
      + intros enc r. destruct (p =? 1).
        * destruct (aget data _) as [t| | |]; cbn [obind]; try discriminate. destruct (icmp4_error t); [same|].
          destruct (t =? 8); [destruct (rdn data _ 2) as [i| | |]|]; cbn [obind]; first [discriminate|same].
        * destruct (negb (is_l4 p)); [same|]. intros H. apply ports_shape in H; auto.
      + intros _. split; [auto|]. split; [auto|]. split; [first [left; reflexivity|right; discriminate]|]. split; [congruence|]. intros enc rc k f. destruct (p =? 1).
        * destruct (aget data _) as [t| | |]; cbn [obind]; try discriminate. destruct (icmp4_error t); [discriminate|].
          destruct (t =? 8); [destruct (rdn data _ 2) as [i| | |]|]; cbn [obind]; try discriminate; intros H; injection H as <- _ _; discriminate.
        * destruct (negb (is_l4 p)); [intros H; injection H as <- _ _; discriminate|]. intros H R. apply ports_tail_inv in H.
          destruct H as (_ & _ & _ & [->| ->]); discriminate.
    - cbn [negb]. destruct (p =? 1).
      + destruct (aget data _) as [t| | |]; cbn [obind]; try (exists (0, [], [], None); split; [intros enc r; discriminate|congruence]).
        destruct (icmp4_error t).
        * unfold getInnerHashKeyIpv4. destruct (negb (in_bounds _ 20 (zlen data))).
          { exists (0, [], [], None). split; [intros enc r; same|congruence]. }
          destruct (aget data _) as [c0| | |]; cbn [obind]; try (exists (0, [], [], None); split; [intros enc r; discriminate|congruence]).
          destruct (c0 mod 16 <? 5). { exists (0, [], [], None). split; [intros enc r; same|congruence]. }
          destruct (rdn data (_ + 16) 4) as [d'| | |]; cbn [obind]; try (exists (0, [], [], None); split; [intros enc r; discriminate|congruence]).
          destruct (rdn data (_ + 12) 4) as [s'| | |]; cbn [obind]; try (exists (0, [], [], None); split; [intros enc r; discriminate|congruence]).
          destruct (aget data _) as [p'| | |]; cbn [obind]; try (exists (0, [], [], None); split; [intros enc r; discriminate|congruence]).
          exists (0, map4 d', map4 s', None). split; [|congruence]. intros enc r. destruct (negb (is_l4 p')); [same|]. intros H. apply ports_shape in H; auto.
        * exists (0, map4 s, map4 d, None). split; [|congruence]. intros enc r.
          destruct (t =? 8); [destruct (rdn data _ 2) as [i| | |]|]; cbn [obind]; first [discriminate|same].
      + exists (0, map4 s, map4 d, None). split; [|congruence]. intros enc r. destruct (negb (is_l4 p)); [same|]. intros H. apply ports_shape in H; auto. }
  destruct (eth =? 34525); [|exists (0, [], [], None); split; [intros enc r; same|congruence]].
  unfold getHashKeyIpv6. destruct (negb (in_bounds 0 40 (zlen data))). { exists (0, [], [], None). split; [intros enc r; same|congruence]. }
  destruct (aget data 6) as [nxt| | |]; cbn [obind]; try (exists (0, [], [], None); split; [intros enc r; discriminate|congruence]).
  destruct (rdn data 8 16) as [s| | |] eqn:ES; cbn [obind]; try (exists (0, [], [], None); split; [intros enc r; discriminate|congruence]).
  destruct (rdn data 24 16) as [d| | |] eqn:ED; cbn [obind]; try (exists (0, [], [], None); split; [intros enc r; discriminate|congruence]).
  destruct (ext_loop fuel true data nxt 40) as [[[ht hd]|]| | |]; cbn [obind]; try (exists (0, [], [], None); split; [intros enc r; discriminate|congruence]);
    [|exists (0, [], [], None); split; [intros enc r; same|congruence]].
  apply rdn_len in ES, ED. destruct (ht =? 44).
  - destruct (rdn data (hd + 2) 2) as [o| | |]; cbn [obind]; try (exists (0, [], [], None); split; [intros enc r; discriminate|congruence]).
    destruct (rdn data (hd + 4) 4) as [id| | |] eqn:EI; cbn [obind]; try (exists (0, [], [], None); split; [intros enc r; discriminate|congruence]).
    apply rdn_len in EI. assert (LI : length (id_bytes id) = 8%nat) by (unfold id_bytes; rewrite app_length, repeat_length, EI; auto).
    destruct (Z.land _ 63743 =? 0).
    + destruct (first_frag_loop fuel data ht hd) as [[h o']| | |]; cbn [obind]; try (exists (0, [], [], None); split; [intros enc r; discriminate|congruence]).
      exists (1, s, d, Some (id_bytes id)). unfold ipv6_upper. split.
      * intros enc r. destruct (h =? 58).
        -- destruct (aget data o') as [t| | |]; cbn [obind]; try discriminate. destruct (icmp6_error t); [same|].
           destruct (t =? 128); [destruct (rdn data _ 2) as [i| | |]|]; cbn [obind]; first [discriminate|same].
        -- destruct (negb (is_l4 h)); [same|]. intros H. apply ports_shape in H; auto.
      * intros _. split; [auto|]. split; [auto|]. split; [first [left; reflexivity|right; discriminate]|]. split; [congruence|]. intros enc rc k f. destruct (h =? 58).
        -- destruct (aget data o') as [t| | |]; cbn [obind]; try discriminate. destruct (icmp6_error t); [discriminate|].
           destruct (t =? 128); [destruct (rdn data _ 2) as [i| | |]|]; cbn [obind]; try discriminate; intros H; injection H as <- _ _; discriminate.
        -- destruct (negb (is_l4 h)); [intros H; injection H as <- _ _; discriminate|]. intros H R. apply ports_tail_inv in H.
           destruct H as (_ & _ & _ & [->| ->]); discriminate.
    + exists (2, s, d, None). split; [intros enc r; same|]. intros _. split; [auto|]. split; [auto|]. split; [first [left; reflexivity|right; discriminate]|]. split; [congruence|].
      intros enc rc k f H _. injection H as <- <- <-. exact LI.
  - unfold ipv6_upper. destruct (ht =? 58).
    + destruct (aget data hd) as [t| | |]; cbn [obind]; try (exists (0, [], [], None); split; [intros enc r; discriminate|congruence]).
      destruct (icmp6_error t).
      * change (0 =? 1) with false. cbv iota. unfold getInnerHashKeyIpv6. destruct (negb (in_bounds _ 40 (zlen data))).
        { exists (0, [], [], None). split; [intros enc r; same|congruence]. }
        destruct (aget data _) as [n'| | |]; cbn [obind]; try (exists (0, [], [], None); split; [intros enc r; discriminate|congruence]).
        destruct (ext_loop fuel false data n' _) as [[[h' o']|]| | |]; cbn [obind]; try (exists (0, [], [], None); split; [intros enc r; discriminate|congruence]);
          [|exists (0, [], [], None); split; [intros enc r; same|congruence]].
        destruct (rdn data (_ + 8) 16) as [s'| | |]; cbn [obind]; try (exists (0, [], [], None); split; [intros enc r; discriminate|congruence]).
        destruct (rdn data (_ + 24) 16) as [d'| | |]; cbn [obind]; try (exists (0, [], [], None); split; [intros enc r; discriminate|congruence]).
        exists (0, d', s', None). split; [|congruence]. intros enc r. destruct (negb (is_l4 h')); [same|]. intros H. apply ports_shape in H; auto.
      * exists (0, s, d, None). split; [|congruence]. intros enc r.
        destruct (t =? 128); [destruct (rdn data _ 2) as [i| | |]|]; cbn [obind]; first [discriminate|same].
    + exists (0, s, d, None). split; [|congruence]. intros enc r. destruct (negb (is_l4 ht)); [same|]. intros H. apply ports_shape in H; auto.
Qed.
Lemma enc_same fuel enc enc' eth data rc k fi rc' k' fi' : getHashKey fuel enc eth data = Ok (Some (rc, k, fi)) ->
  getHashKey fuel enc' eth data = Ok (Some (rc', k', fi')) -> k_src k' = k_src k /\ k_dst k' = k_dst k /\ fi' = fi /\ Z.land rc' 3 = Z.land rc 3.
Proof.
  intros H H'. destruct (key_shape fuel eth data) as ([[[b s] d] i] & S & _). apply S in H, H'. cbn [shape] in H, H'.
  destruct H as (A & B & C & D). destruct H' as (A' & B' & C' & D'). split; [congruence|]. split; [congruence|]. split; congruence.
Qed.
Lemma land31 rc : Z.land rc 1 = Z.land (Z.land rc 3) 1.
Proof. rewrite <- Z.land_assoc. reflexivity. Qed.
Definition dkey (d : dgram) : list Z := d_src d ++ d_dst d ++ d_id d.
Lemma frag_len enc eth data b d : frag_of enc eth data b d -> length (d_src d) = 16%nat /\ length (d_dst d) = 16%nat /\ length (d_id d) = 8%nat.
Proof.
  intros (rc & k & fi & H & <- & <- & R). destruct (key_shape (S (length data)) eth data) as ([[[x s] d'] i] & SH & L).
  pose proof (SH _ _ H) as (A & B & C & D). destruct b.
  - destruct R as (R & F). assert (NX : x <> 0) by (intros ->; apply R; rewrite land31, A; reflexivity).
    destruct (L NX) as (L1 & L2 & _ & L3 & _). rewrite B, C. split; [auto|]. split; [auto|]. apply L3. congruence.
  - destruct R as (R & O & F). assert (NX : x <> 0) by congruence. destruct (L NX) as (L1 & L2 & _ & _ & L4). rewrite B, C. split; [auto|]. split; [auto|].
    rewrite <- F. eapply L4; eauto.
Qed.
Lemma app_inj_len {A} (a a' b b' : list A) : length a = length a' -> a ++ b = a' ++ b' -> a = a' /\ b = b'.
Proof.
  revert a'. induction a as [|x a IH]; intros [|y a'] L E; cbn in *; try discriminate; auto. injection E as -> E.
  destruct (IH a' (f_equal pred L) E) as (-> & ->). auto.
Qed.
Lemma dkey_inj enc eth data b d enc' eth' data' b' d' : frag_of enc eth data b d -> frag_of enc' eth' data' b' d' -> dkey d = dkey d' -> d = d'.
Proof.
  intros H H' E. apply frag_len in H, H'. unfold dkey in E. destruct d as [a1 a2 a3], d' as [b1 b2 b3]. cbn [d_src d_dst d_id] in *.
  destruct (app_inj_len a1 b1 (a2 ++ a3) (b2 ++ b3)) as (-> & E2); [lia|auto|]. destruct (app_inj_len a2 b2 a3 b3) as (-> & ->); [lia|auto|]. auto.
Qed.
(** Fragments according to the packet formats (C14) *)
Lemma part_other enc eth data a b id : part eth data false a b id -> frag_of enc eth data false (mkD a b (id_bytes id)).
Proof.
  intros [(-> & s & d & -> & -> & F)|(-> & nxt & F)].
  - eexists _, _, _. split; [apply (ipv4_nonfirst _ _ _ _ _ _ F)|]. cbn. split; [auto|]. split; [auto|]. split; [discriminate|]. auto.
  - eexists _, _, _. split; [apply (ipv6_frag_head _ _ _ _ _ _ _ _ F)|]. cbn. split; [auto|]. split; [auto|]. split; [discriminate|]. auto.
Qed.
Lemma odd_land rc : Z.odd rc = true -> Z.land rc 1 <> 0.
Proof. intros O Z0. assert (T : Z.testbit (Z.land rc 1) 0 = true) by (rewrite Z.land_spec, Z.bit0_odd, O; reflexivity). rewrite Z0 in T. discriminate. Qed.
Lemma part_first enc eth data a b id r : part eth data true a b id -> getHashKey (S (length data)) enc eth data = Ok (Some r) ->
  frag_of enc eth data true (mkD a b (id_bytes id)).
Proof.
  intros P K. destruct r as [[rc k] fi]. exists rc, k, fi. split; [auto|]. destruct P as [(-> & s & d & -> & -> & F)|(-> & nxt & F)].
  - destruct (ipv4_first _ _ _ _ _ _ _ _ _ F K) as (R & B & C & D). cbn. split; [auto|]. split; [auto|]. split; [apply odd_land; auto|auto].
  - destruct (ipv6_first _ _ _ _ _ _ _ _ _ _ F K) as (R & B & C & D). cbn. split; [auto|]. split; [auto|]. split; [apply odd_land; auto|auto].
Qed.

(** ** The calls of the fragment table a packet makes *)
Record calls := mkC { c_conf : Frag_Model.conf; c_time : Z; c_done : bool; c_state : state -> Prop; c_quiet : Z -> Prop;
  c_first : list Z -> Prop; c_other : list Z -> Prop }.
Definition fcall (C : calls) (s s' : state) (p' : prog) : Prop :=
  (exists K v ob rc val, c_first C K /\ Frag_Model.call_op (c_conf C) (t_ft s) (Frag_Model.CFirst (c_time C) K v true) (c_done C) = Ok (t_ft s', ob) /\
     retOf ob = Some (rc, val) /\ p' = Ret (Verdict (if rc =? 0 then v else -1))) \/
  (exists K data ob rc val x, c_other C K /\ Frag_Model.call_op (c_conf C) (t_ft s) (Frag_Model.CStore (c_time C) K data) (c_done C) = Ok (t_ft s', ob) /\
     retOf ob = Some (rc, val) /\ p' = Ret (Verdict x) /\ (rc = 0 /\ val = Some x \/ rc <> 0 /\ x = -1)).
Fixpoint fok (C : calls) (p : prog) : Prop :=
  match p with
  | Ret (Verdict x) => c_quiet C x
  | Ret (Reply _) => False
  | Act _ f => forall s, c_state C s -> fokr C s (f s)
  end
with fokr (C : calls) (s : state) (r : result) : Prop :=
  match r with
  | Next _ s' p' => t_mem s' = t_mem s /\ (t_ft s' = t_ft s /\ fok C p' \/ fcall C s s' p')
  | _ => True
  end.
Lemma fok_act C l f : (forall s, c_state C s -> fokr C s (f s)) -> fok C (Act l f).
Proof. auto. Qed.
Lemma fok_stop C : fok C stop.
Proof. cbn. auto. Qed.
Lemma fok_read C reg hash k :
  (forall s r i, c_state C s -> reg s = Some r -> znth (mlookup (t_mem s r)) (hash mod mM (t_mem s r)) = Some i -> i < 0 -> fok C (k i)) ->
  (forall s r i s' r' fw, c_state C s -> reg s = Some r -> znth (mlookup (t_mem s r)) (hash mod mM (t_mem s r)) = Some i -> 0 <= i ->
     c_state C s' -> reg s' = Some r' -> znth (mactive (t_mem s' r')) i = Some fw -> fok C (k fw)) ->
  fok C (readTable reg hash k).
Proof.
  intros HN HP. apply fok_act. intros s W. destruct (reg s) as [r|] eqn:ER; [|exact I]. destruct (mM (t_mem s r) =? 0); [exact I|].
  unfold aget at 1. destruct (znth (mlookup (t_mem s r)) _) as [i|] eqn:EI; [|exact I]. destruct (Z.ltb_spec i 0) as [N|N].
  - split; [auto|]. left. split; [auto|]. eapply HN; eauto.
  - split; [auto|]. left. split; [auto|]. apply fok_act. intros s' W'. destruct (reg s') as [r'|] eqn:ER'; [|exact I]. unfold aget.
    destruct (znth (mactive (t_mem s' r')) i) as [fw|] eqn:EF; [|exact I]. split; [auto|]. left. split; [auto|]. exact (HP s r i s' r' fw W ER EI N W' ER' EF).
Qed.
Lemma lockRef_mem s a s' : lockRef s a = Some s' -> t_mem s' = t_mem s.
Proof. unfold lockRef. destruct (deref s a); [|discriminate]. intros H. injection H as <-. reflexivity. Qed.
Lemma fok_release C l a k : fok C k -> fok C (release l a k).
Proof.
  intros K. unfold release. destruct (a =? 0); auto. apply fok_act. intros s W. destruct (deref s a) as [o|]; [|exact I].
  destruct (_ <? 0); [exact I|]. destruct (_ =? 0); (split; [reflexivity|left; split; [reflexivity|]]); [|exact K]. apply fok_act. clear s W o. intros s W.
  destruct (deref s a) as [o|]; [|exact I]. destruct (unlink _ _ _) as [l'|]; [|exact I]. split; [reflexivity|left; split; [reflexivity|]]. apply fok_act.
  clear s W o l'. intros s W. destruct (deref s a) as [o|]; [|exact I]. split; [reflexivity|left; split; [reflexivity|]]. exact K.
Qed.
Lemma fok_trace C h a p : fok C p -> fok C (traceTarget h a p).
Proof.
  intros K. unfold traceTarget. destruct (h_trace h); auto. apply fok_act. intros s W. destruct (deref s a); [|exact I].
  split; [reflexivity|left; split; [reflexivity|]]. exact K.
Qed.
Lemma fok_lookup C h k eth data u kont : (forall a u', fok C (kont a u')) -> fok C (lookup h k eth data u kont).
Proof.
  intros K. apply fok_act. intros s W. destruct (flowLookup _ _ _ _ _ _) as [[a u']| | |]; try exact I.
  destruct (a =? 0); [split; [reflexivity|left; split; [reflexivity|]]; apply K|]. destruct (lockRef s a) as [s'|] eqn:EL; [|exact I].
  split; [apply (lockRef_mem _ _ _ EL)|left; split; [apply (lockRef_ft _ _ _ EL)|]]. apply K.
Qed.
Definition for_packet (C : calls) (h : hconf) (now : Z) (done : bool) : Prop := c_conf C = h_frag h /\ c_time C = now /\ c_done C = done.
Lemma fok_first C h now done k fi fw : for_packet C h now done -> (forall id, fi = Some id -> c_first C (key_bytes (with_id k id))) ->
  fok C (firstFragment h now done k fi fw).
Proof.
  intros (E1 & E2 & E3) F. destruct fi as [id|]; [|apply fok_stop]. apply fok_act. intros s W.
  match goal with |- context [Frag_Model.call_op ?g ?s ?c ?d] => destruct (Frag_Model.call_op g s c d) as [[ft ob]| | |] eqn:E; try exact I end.
  destruct (retOf ob) as [[rc v]|] eqn:ER; [|exact I]. split; [reflexivity|]. right. left. exists (key_bytes (with_id k id)), fw, ob, rc, v.
  split; [apply F; auto|]. rewrite E1, E2, E3. cbn [set_ft t_ft]. split; [exact E|]. auto.
Qed.
Lemma fok_other C h now done k data : for_packet C h now done -> c_other C (key_bytes k) -> fok C (otherFragment h now done k data).
Proof.
  intros (E1 & E2 & E3) F. apply fok_act. intros s W.
  match goal with |- context [Frag_Model.call_op ?g ?s ?c ?d] => destruct (Frag_Model.call_op g s c d) as [[ft ob]| | |] eqn:E; try exact I end.
  destruct (retOf ob) as [[rc v]|] eqn:ER; [|exact I].
  assert (G : forall x, rc = 0 /\ v = Some x \/ rc <> 0 /\ x = -1 -> fokr C s (Next [] (set_ft s ft []) (Ret (Verdict x)))).
  { intros x X. split; [reflexivity|]. right. right. exists (key_bytes k), data, ob, rc, v, x. split; [exact F|]. rewrite E1, E2, E3.
    split; [exact E|]. auto. }
  destruct rc as [|q|q]; [destruct v as [v|]; [|exact I]|..]; apply G; [left; auto|right; split; [discriminate|auto]..].
Qed.
Lemma fok_forward C h now done rc k fi a : for_packet C h now done -> (forall x, In x [-1; h_notargets h; h_nolb h] -> c_quiet C x) ->
  (Z.land rc 1 = 0 -> forall x, c_quiet C x) -> (Z.land rc 1 <> 0 -> forall id, fi = Some id -> c_first C (key_bytes (with_id k id))) ->
  fok C (forward h now done rc k fi a).
Proof.
  intros E N Q F. unfold forward. destruct (a =? 0); [apply N; right; right; left; auto|].
  assert (G : forall fw, fok C (release Quiet a (traceTarget h a (
      if fw <? 0 then Ret (Verdict (h_notargets h)) else if Z.land rc 1 =? 0 then Ret (Verdict fw) else firstFragment h now done k fi fw)))).
  { intros fw. apply fok_release, fok_trace. destruct (fw <? 0); [apply N; right; left; auto|]. destruct (Z.eqb_spec (Z.land rc 1) 0) as [R|R]; [apply Q; auto|].
    apply fok_first; auto. }
  apply fok_read; intros; apply G.
Qed.
(** What is to be shown about the tier, the verdicts without a call and the calls *)
Record conditions (C : calls) (h : hconf) (enc eth : Z) (data : list Z) (Cd : dgram -> Prop) : Prop := {
  cn_tier : forall k local b d, frag_of enc eth data b d -> k_src k = d_src d -> k_dst k = d_dst d -> (Cd d -> fok C local) -> fok C (tier h k local);
  cn_first : forall d, frag_of enc eth data true d -> Cd d -> c_first C (dkey d);
  cn_other : forall d, frag_of enc eth data false d -> Cd d -> c_other C (dkey d);
  cn_none : forall x, (forall b d, frag_of enc eth data b d -> b = true /\ Cd d) -> In x [-1; h_notargets h; h_nolb h] -> c_quiet C x;
  cn_any : forall x, (forall b d, ~ frag_of enc eth data b d) -> c_quiet C x }.
Lemma frag_kind enc eth data rc k fi b d : getHashKey (S (length data)) enc eth data = Ok (Some (rc, k, fi)) -> frag_of enc eth data b d ->
  Z.land rc 3 <> 0 /\ (if b then Z.land rc 1 <> 0 else Z.land rc 1 = 0).
Proof.
  intros E (rc' & k' & fi' & E' & _ & _ & R). rewrite E in E'. injection E' as <- <- <-. destruct b; [|destruct R as (R1 & R2 & _); auto].
  destruct R as (R & _). split; auto. intros Z0. apply R. rewrite land31, Z0. reflexivity.
Qed.
Lemma fi_some fuel enc eth data rc k : getHashKey fuel enc eth data = Ok (Some (rc, k, None)) -> Z.land rc 1 = 0.
Proof.
  intros H. destruct (key_shape fuel eth data) as ([[[x s] d'] i] & SH & L). pose proof (SH _ _ H) as (A & B & C & D). rewrite land31, A.
  destruct (Z.eq_dec x 0) as [->|N]; [reflexivity|]. destruct (L N) as (_ & _ & [->|X] & _); [reflexivity|congruence].
Qed.
Lemma only_first enc eth data rc k fi (Cd : dgram -> Prop) : getHashKey (S (length data)) enc eth data = Ok (Some (rc, k, fi)) ->
  (Z.land rc 1 = 0 -> Z.land rc 3 = 0) -> (Z.land rc 1 <> 0 -> forall id, fi = Some id -> Cd (mkD (k_src k) (k_dst k) id)) ->
  forall b d, frag_of enc eth data b d -> b = true /\ Cd d.
Proof.
  intros EG NO HC b d X. destruct (frag_kind _ _ _ _ _ _ _ _ EG X) as (A & B). destruct b; [|exfalso; auto]. split; auto.
  destruct X as (rc' & k' & fi' & E' & S & D & _ & F). rewrite EG in E'. injection E' as <- <- <-.
  specialize (HC B _ F). destruct d as [a b i]. cbn [d_src d_dst d_id] in *. subst. exact HC.
Qed.
Lemma packet_fok C h now done eth data Cd : for_packet C h now done -> conditions C h 0 eth data Cd -> fok C (packet h now done eth data).
Proof.
  intros E H. unfold packet. destruct (getHashKey _ 0 eth data) as [[[[rc k] fi]|]| | |] eqn:EG; try apply fok_stop.
  2: { apply (cn_none _ _ _ _ _ _ H); [|left; auto]. intros b d (rc & k & fi & X & _). rewrite EG in X. discriminate. }
  assert (CL : (Z.land rc 1 = 0 -> Z.land rc 3 = 0) -> (Z.land rc 1 <> 0 -> forall id, fi = Some id -> Cd (mkD (k_src k) (k_dst k) id)) ->
     fok C (classify h now done eth data rc k fi)).
  { intros NO HC. assert (NF : forall b d, frag_of 0 eth data b d -> b = true /\ Cd d) by (eapply only_first; eauto).
    assert (FW : forall rc' k' fi' a, k_src k' = k_src k -> k_dst k' = k_dst k -> fi' = fi -> Z.land rc' 3 = Z.land rc 3 -> fok C (forward h now done rc' k' fi' a)).
    { intros rc' k' fi' a S D -> R. assert (R1 : Z.land rc' 1 = Z.land rc 1) by (rewrite land31, R, <- land31; auto). apply fok_forward; auto.
      - intros x X. apply (cn_none _ _ _ _ _ _ H); auto.
      - intros R0 x. apply (cn_any _ _ _ _ _ _ H). intros b d X. destruct (frag_kind _ _ _ _ _ _ _ _ EG X) as (A & B). apply A, NO. congruence.
      - intros R0 id ->. rewrite R1 in R0. unfold with_id, key_bytes. cbn [k_src k_dst k_id]. rewrite S, D.
        apply (cn_first _ _ _ _ _ _ H (mkD (k_src k) (k_dst k) id)); [|apply HC; auto]. exists rc, k, (Some id). auto. }
    unfold classify. apply fok_lookup. intros a u. destruct (_ && _); [|apply FW; auto].
    destruct (getHashKey _ u eth data) as [[[[rc' k'] fi']|]| | |] eqn:EG'; try apply fok_stop; [|apply (cn_none _ _ _ _ _ _ H); [auto|left; auto]].
    destruct (enc_same _ _ _ _ _ _ _ _ _ _ _ EG EG') as (S & D & F & R). apply fok_lookup. intros a' _. apply FW; auto. subst fi'. destruct fi; auto. }
  destruct (Z.eqb_spec (Z.land rc 3) 0) as [Z3|N3].
  { apply CL; auto. intros X. exfalso. apply X. rewrite land31, Z3. reflexivity. }
  destruct (Z.eqb_spec (Z.land rc 1) 0) as [Z1|N1].
  - assert (X : frag_of 0 eth data false (mkD (k_src k) (k_dst k) (k_id k))) by (exists rc, k, fi; cbn; auto 6).
    apply (cn_tier _ _ _ _ _ _ H k _ false _ X); auto. intros HC. apply fok_other; auto. apply (cn_other _ _ _ _ _ _ H _ X HC).
  - destruct fi as [id|].
    + assert (X : frag_of 0 eth data true (mkD (k_src k) (k_dst k) id)) by (exists rc, k, (Some id); cbn; auto 6).
      apply (cn_tier _ _ _ _ _ _ H k _ true _ X); auto. intros HC. apply CL; [congruence|]. intros _ id' Y. injection Y as <-. exact HC.
    + exfalso. apply N1. apply (fi_some _ _ _ _ _ _ EG).
Qed.
Lemma lb_fok C g now done eth data Cd : for_packet C (l_h g) now done -> conditions C (l_h g) (l_encap g) eth data Cd -> fok C (lbPacket g now done eth data).
Proof.
  intros E H. unfold lbPacket. destruct (getHashKey _ (l_encap g) eth data) as [[[[rc k] fi]|]| | |] eqn:EG; try apply fok_stop.
  2: { apply (cn_none _ _ _ _ _ _ H); [|left; auto]. intros b d (rc & k & fi & X & _). rewrite EG in X. discriminate. }
  assert (CL : (Z.land rc 1 = 0 -> Z.land rc 3 = 0) -> (Z.land rc 1 <> 0 -> forall id, fi = Some id -> Cd (mkD (k_src k) (k_dst k) id)) ->
     fok C (balance g now done rc k fi)).
  { intros NO HC. assert (NF : forall b d, frag_of (l_encap g) eth data b d -> b = true /\ Cd d) by (eapply only_first; eauto).
    assert (G : forall fw, fok C (if fw <? 0 then Ret (Verdict (h_notargets (l_h g))) else if Z.land rc 1 =? 0 then Ret (Verdict fw)
      else firstFragment (l_h g) now done k fi fw)).
    { intros fw. destruct (fw <? 0); [apply (cn_none _ _ _ _ _ _ H); [auto|right; left; auto]|]. destruct (Z.eqb_spec (Z.land rc 1) 0) as [R|R].
      - apply (cn_any _ _ _ _ _ _ H). intros b d X. destruct (frag_kind _ _ _ _ _ _ _ _ EG X) as (A & B). auto.
      - apply fok_first; auto. intros id ->. apply (cn_first _ _ _ _ _ _ H (mkD (k_src k) (k_dst k) id)); [|apply HC; auto]. exists rc, k, (Some id). auto. }
    apply fok_read; intros; apply G. }
  destruct (Z.eqb_spec (Z.land rc 3) 0) as [Z3|N3].
  { apply CL; auto. intros X. exfalso. apply X. rewrite land31, Z3. reflexivity. }
  destruct (Z.eqb_spec (Z.land rc 1) 0) as [Z1|N1].
  - assert (X : frag_of (l_encap g) eth data false (mkD (k_src k) (k_dst k) (k_id k))) by (exists rc, k, fi; cbn; auto 6).
    apply (cn_tier _ _ _ _ _ _ H k _ false _ X); auto. intros HC. apply fok_other; auto. apply (cn_other _ _ _ _ _ _ H _ X HC).
  - destruct fi as [id|].
    + assert (X : frag_of (l_encap g) eth data true (mkD (k_src k) (k_dst k) id)) by (exists rc, k, (Some id); cbn; auto 6).
      apply (cn_tier _ _ _ _ _ _ H k _ true _ X); auto. intros HC. apply CL; [congruence|]. intros _ id' Y. injection Y as <-. exact HC.
    + exfalso. apply N1. apply (fi_some _ _ _ _ _ _ EG).
Qed.
Lemma frag_unique enc eth data b d b' d' : frag_of enc eth data b d -> frag_of enc eth data b' d' -> b' = b /\ d' = d.
Proof.
  intros (rc & k & fi & E & S & D & R) (rc' & k' & fi' & E' & S' & D' & R'). rewrite E in E'. injection E' as <- <- <-.
  destruct d as [a1 a2 a3], d' as [b1 b2 b3]. cbn [d_src d_dst d_id] in *. subst.
  destruct b, b'; [destruct R as (_ & R), R' as (_ & R'); split; congruence|destruct R as (R & _), R' as (_ & R' & _); congruence
    |destruct R as (_ & R & _), R' as (R' & _); congruence|destruct R as (_ & _ & R), R' as (_ & _ & R'); split; congruence].
Qed.
