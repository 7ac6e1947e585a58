(** The tables of options, queues, and flow-set command lines. *)
From Coq Require Import String.
From Verif Require Import Base Lists Cstr_Model Util_Spec Util_Proofs Rangeset_Model Rangeset_Spec Rangeset2_Proofs Fwmark_Proofs
  Remote_Model Remote_Spec Remote_Proofs Opt_Model Opt_Spec Opt_Proofs FlowSet_Spec.

(** ** Tables *)
Definition okb (o : opt) : bool :=
  negb (streq (p_name o) []) && forallb (fun c => negb (c =? 61)) (p_name o) && negb (hd 0 (p_name o) =? 45) &&
  (p_var o || match p_default o with None => true | Some _ => false end).
Fixpoint nodupb (l : list chars) : bool := match l with [] => true | x :: r => forallb (fun y => negb (streq x y)) r && nodupb r end.
Lemma nodupb_ok l : nodupb l = true -> NoDup l.
Proof.
  induction l as [|x l IH]; cbn; [constructor|]. rewrite andb_true_iff, forallb_forall. intros (N & R). constructor; [|auto].
  intros C. specialize (N x C). rewrite streq_refl in N. discriminate.
Qed.
Lemma table_okb opts : (zlen opts <=? 31) && nodupb (map p_name opts) && forallb okb opts = true -> table_ok opts.
Proof.
  rewrite !andb_true_iff. intros ((L & N) & F). split; [lia|]. split; [apply nodupb_ok; auto|].
  rewrite forallb_forall in F. apply Forall_forall. intros o O. specialize (F o O). unfold okb in F. rewrite !andb_true_iff in F.
  destruct F as (((A & B) & C) & D). split; [|split; [|split]].
  - intros X. rewrite X in A. discriminate.
  - intros X. rewrite forallb_forall in B. specialize (B 61 X). discriminate.
  - destruct (Z.eqb_spec (hd 0 (p_name o)) 45); [discriminate|assumption].
  - intros V. rewrite V in D. destruct (p_default o); [discriminate|reflexivity].
Qed.
Lemma tables_all_ok : Forall table_ok tables.
Proof. unfold tables. repeat (constructor; [apply table_okb; vm_compute; reflexivity|]). constructor. Qed.
Lemma flowSet_ok : table_ok flowSetOpts.
Proof. apply table_okb. vm_compute. reflexivity. Qed.

(** ** Queues *)
Lemma NoDup_snoc A (l : list A) x : NoDup l -> ~ In x l -> NoDup (l ++ [x]).
Proof.
  induction l as [|y l IH]; cbn; intros N X; [constructor; [exact X|constructor]|]. inversion N; subst. constructor.
  - rewrite in_app_iff. cbn. intros [C|[C|[]]]; [contradiction|]. subst. apply X. auto.
  - apply IH; auto.
Qed.
Lemma countUp_In n : forall q x, In x (countUp n q) <-> q <= x < q + Z.of_nat n.
Proof. induction n as [|n IH]; intros q x; cbn [countUp In]; [lia|]. rewrite IH. lia. Qed.
Lemma countUp_NoDup n : forall q, NoDup (countUp n q).
Proof. induction n as [|n IH]; intros q; cbn [countUp]; constructor; [rewrite countUp_In; lia|apply IH]. Qed.
Lemma queue_one d n : is_dec d n -> n <= 2147483647 -> queues d = Ok [n].
Proof.
  intros D L. destruct (atoi_dec d n D L) as (A & P). unfold queues. rewrite split_none by (eapply dec_no; eauto; lia).
  rewrite A. unfold u32, two32. rewrite Z.mod_small by lia. reflexivity.
Qed.
Lemma queue_colon d e : ~ In 58 d -> split_at 58 (d ++ str ":" ++ e) = Some (d, e).
Proof. intros N. apply split_some. exact N. Qed.
Lemma queue_scan d n e m : is_dec d n -> is_dec e m -> is_u32 n -> is_u32 m ->
  queues (d ++ str ":" ++ e) = if m <? n then Die else Ok (countUp (Z.to_nat (m - n)) n ++ [m]).
Proof.
  intros D E N M. unfold queues. rewrite queue_colon by (eapply dec_no; eauto; lia).
  rewrite (scanu_dec d n (str ":" ++ e) D N) by reflexivity. change (str ":" ++ e) with (58 :: e). change (58 =? 58) with true. cbv iota.
  assert (S := scanu_dec e m [] E M Logic.I). rewrite app_nil_r in S. rewrite S. reflexivity.
Qed.
Lemma queue_range d n e m : is_dec d n -> is_dec e m -> is_u32 n -> is_u32 m -> n <= m ->
  exists l, queues (d ++ str ":" ++ e) = Ok l /\ NoDup l /\ (forall q, In q l <-> n <= q <= m).
Proof.
  intros D E N M L. rewrite (queue_scan d n e m) by auto. destruct (m <? n) eqn:X; [lia|]. eexists. split; [reflexivity|].
  assert (I : forall q, In q (countUp (Z.to_nat (m - n)) n ++ [m]) <-> n <= q <= m).
  { intros q. rewrite in_app_iff, countUp_In. cbn [In]. unfold is_u32 in *. rewrite Z2Nat.id by lia. lia. }
  split; [|exact I]. apply NoDup_snoc; [apply countUp_NoDup|rewrite countUp_In; unfold is_u32 in *; rewrite Z2Nat.id by lia; lia].
Qed.
Lemma queue_wrong d n e m : is_dec d n -> is_dec e m -> is_u32 n -> is_u32 m -> m < n -> queues (d ++ str ":" ++ e) = Die.
Proof. intros D E N M L. rewrite (queue_scan d n e m) by auto. destruct (m <? n) eqn:X; [reflexivity|lia]. Qed.
Lemma queue_some s l : queues s = Ok l -> l <> [].
Proof.
  unfold queues. destruct (split_at 58 s).
  - destruct (scanu s) as [[n [|c r]]|]; try discriminate. destruct (c =? 58); [|discriminate].
    destruct (scanu r) as [[m r2]|]; [|discriminate]. destruct (m <? n); [discriminate|]. intros H. inversion H.
    destruct (countUp _ _); discriminate.
  - intros H. inversion H. discriminate.
Qed.

(** ** flow-set *)
Definition okname (i : Z) (n : string) : Prop := exists o, znth flowSetOpts i = Some o /\ p_name o = str n.
Lemma val_at its i n v : okname i n -> has_value flowSetOpts its i v -> value_of flowSetOpts its n v.
Proof. intros (o & Z & N) H. exists i, o. auto. Qed.


Lemma plain_app a b : plain (a ++ b) <-> plain a /\ plain b.
Proof. unfold plain. rewrite !in_app_iff. tauto. Qed.
Lemma item_words its tail it w : In it its -> In w (words_of it) -> In w (line its tail).
Proof. intros I W. unfold line. rewrite in_app_iff. left. apply in_concat. exists (words_of it). split; auto. apply in_map. auto. Qed.
Lemma value_plain its tail i v : Forall plain (line its tail) -> has_value flowSetOpts its i (Some v) -> plain v.
Proof.
  intros P H. rewrite Forall_forall in P. destruct H as [(pre & it & post & E & G & _)|(_ & o & Z & D)].
  - assert (I : In it its) by (rewrite E, in_app_iff; cbn; auto).
    destruct it as [two a x|two a x|two a|w]; cbn [gives] in G; [| | |destruct G]; destruct G as (_ & G); inversion G; subst x.
    + assert (X := P (dashes two ++ a ++ 61 :: v) (item_words its tail _ _ I (or_introl eq_refl))).
      rewrite !plain_app in X. destruct X as (_ & _ & X). change (61 :: v) with ([61] ++ v) in X. rewrite plain_app in X. tauto.
    + apply P. eapply item_words; eauto. right. left. reflexivity.
  - exfalso. assert (F : Forall (fun o => p_default o = None) flowSetOpts) by (repeat constructor).
    rewrite Forall_forall in F. rewrite (F o) in D by (eapply znth_In; eauto). discriminate.
Qed.

Definition given_opts (its : list item) (o : setopts) : Prop :=
  let val := value_of flowSetOpts its in
  val "name"%string (Some (o_name o)) /\ val "target"%string (Some (o_target o)) /\ val "prio"%string (o_prio o) /\
  val "protocols"%string (o_protocols o) /\ val "dsts"%string (o_dsts o) /\ val "srcs"%string (o_srcs o) /\
  val "dports"%string (o_dports o) /\ val "sports"%string (o_sports o) /\ val "match"%string (o_match o) /\ val "udpencap"%string (o_udpencap o).

Lemma gv_skip f g v l : streq (str f) (str g) = false -> given_value (str f) (given_opt g v ++ l) = given_value (str f) l.
Proof.
  intros N. destruct v as [v|]; cbn [given_opt app given_value]; auto. destruct (list_eq_dec Z.eq_dec (str f) (str g)) as [E|]; auto.
  rewrite E, streq_refl in N. discriminate.
Qed.
Lemma gv_hit f v l : given_value (str f) l = None -> given_value (str f) (given_opt f v ++ l) = v.
Proof.
  intros N. destruct v as [v|]; cbn [given_opt app given_value]; auto. destruct (list_eq_dec Z.eq_dec (str f) (str f)); congruence.
Qed.
Lemma gv_cons f g v l : streq (str f) (str g) = false -> given_value (str f) ((str g, v) :: l) = given_value (str f) l.
Proof. intros N. apply (gv_skip f g (Some v) l N). Qed.
Lemma gv_last f v : given_value (str f) (given_opt f v) = v.
Proof. rewrite <- (app_nil_r (given_opt f v)). apply gv_hit. reflexivity. Qed.
Lemma gv_no f g v : streq (str f) (str g) = false -> given_value (str f) (given_opt g v) = None.
Proof. intros N. rewrite <- (app_nil_r (given_opt g v)). apply gv_skip. exact N. Qed.
Ltac gv := repeat first [rewrite gv_cons by reflexivity|rewrite gv_skip by reflexivity];
  first [apply gv_last|apply gv_hit; repeat rewrite gv_skip by reflexivity; apply gv_no; reflexivity].

Lemma given_asked its o c : given_opts its o -> decoded (set_request o) c -> asked its c.
Proof.
  intros (G1 & G2 & G3 & G4 & G5 & G6 & G7 & G8 & G9 & G10) (D1 & D2 & D3 & D4 & D5 & D6 & D7 & D8 & D9 & D10 & D11).
  assert (X1 : given_value (str "action") (set_request o) = Some (str "set")) by reflexivity.
  assert (X2 : given_value (str "name") (set_request o) = Some (o_name o)) by reflexivity.
  assert (X3 : given_value (str "target") (set_request o) = Some (o_target o)) by reflexivity.
  assert (X4 : given_value (str "priority") (set_request o) = o_prio o) by (unfold set_request; gv).
  assert (X5 : given_value (str "protocols") (set_request o) = o_protocols o) by (unfold set_request; gv).
  assert (X6 : given_value (str "dsts") (set_request o) = o_dsts o) by (unfold set_request; gv).
  assert (X7 : given_value (str "srcs") (set_request o) = o_srcs o) by (unfold set_request; gv).
  assert (X8 : given_value (str "dports") (set_request o) = o_dports o) by (unfold set_request; gv).
  assert (X9 : given_value (str "sports") (set_request o) = o_sports o) by (unfold set_request; gv).
  assert (X10 : given_value (str "match") (set_request o) = o_match o) by (unfold set_request; gv).
  assert (X11 : given_value (str "udpencap") (set_request o) = o_udpencap o) by (unfold set_request; gv).
  rewrite X1 in D1. rewrite X2 in D2. rewrite X3 in D3. rewrite X4 in D4. rewrite X5 in D5. rewrite X8 in D6. rewrite X9 in D7.
  rewrite X6 in D8. rewrite X7 in D9. rewrite X10 in D10. rewrite X11 in D11.
  unfold asked. rewrite D1, D2, D3, D6, D7.
  split; [reflexivity|]. split; [split; [discriminate|exact G1]|]. split; [split; [discriminate|exact G2]|].
  split; [exists (o_prio o); auto|]. split; [exists (o_protocols o); auto|]. split; [exact G7|]. split; [exact G8|].
  split; [exists (o_dsts o); auto|]. split; [exists (o_srcs o); auto|]. split; [exists (o_match o); auto|]. exists (o_udpencap o). auto.
Qed.

(** The options of an accepted line *)
Lemma line_opts its tail : Forall (item_ok flowSetOpts) its -> forall vals rest, parseOptions flowSetOpts (line its tail) = Ok (Parsed vals rest) ->
  exists h name target prio protocols dsts srcs dports sports match_ udpencap,
    vals = [h; Some name; Some target; prio; protocols; dsts; srcs; dports; sports; match_; udpencap] /\
    given_opts its (mkSO name target prio protocols dsts srcs dports sports match_ udpencap).
Proof.
  intros F vals rest P. assert (T := flowSet_ok).
  assert (M : forall i, ~ missing flowSetOpts its i). { intros i M. rewrite (line_missing _ its tail i T F M) in P. discriminate. }
  destruct (line_read _ its tail T F M) as (vals' & P' & L & V). rewrite P' in P. inversion P; subst vals'. clear P P'.
  change (zlen flowSetOpts) with 11 in L. unfold zlen in L.
  destruct vals as [|v0 [|v1 [|v2 [|v3 [|v4 [|v5 [|v6 [|v7 [|v8 [|v9 [|v10 [|]]]]]]]]]]]]; cbn [length] in L; try lia.
  assert (W : forall i n v, okname i n -> znth [v0; v1; v2; v3; v4; v5; v6; v7; v8; v9; v10] i = Some v -> value_of flowSetOpts its n v).
  { intros i n v O Z. apply (val_at its i); auto. }
  assert (S : forall i v o, znth [v0; v1; v2; v3; v4; v5; v6; v7; v8; v9; v10] i = Some v -> znth flowSetOpts i = Some o -> p_req o = true -> takesArg o = true -> v <> None).
  { intros i v o Z O R TA ->. specialize (V i None Z). destruct V as [(pre & it & post & E & G & _)|(N & o' & O' & D)].
    - assert (K : item_ok flowSetOpts it) by (rewrite Forall_forall in F; apply F; rewrite E, in_app_iff; cbn; auto).
      destruct it as [two a x|two a x|two a|w]; cbn [gives] in G; [| | |destruct G]; destruct G as (D & G); try discriminate.
      cbn [item_ok] in K. destruct K as (_ & j & o' & D' & Z' & FL & _). assert (j = i) by (eapply denotes_fun; eauto). subst j.
      rewrite O in Z'. inversion Z'; subst o'. apply flag_takes in FL. congruence.
    - apply (M i). exists o. auto. }
  destruct v1 as [name|]; [|destruct (S 1 None (must "name")); reflexivity].
  destruct v2 as [target|]; [|destruct (S 2 None (must "target")); reflexivity].
  exists v0, name, target, v3, v4, v5, v6, v7, v8, v9, v10. split; [reflexivity|]. unfold given_opts.
  cbn [o_name o_target o_prio o_protocols o_dsts o_srcs o_dports o_sports o_match o_udpencap].
  repeat split;
    [apply (W 1)|apply (W 2)|apply (W 3)|apply (W 4)|apply (W 5)|apply (W 6)|apply (W 7)|apply (W 8)|apply (W 9)|apply (W 10)];
    (eexists; split; reflexivity) || reflexivity.
Qed.

Lemma flow_set_line its tail s rest : Forall (item_ok flowSetOpts) its -> sendable its tail -> flowSetLine (line its tail) = Ok (Some s) ->
  exists c, readFlowCmd (s ++ rest) = Ok (Some (c, rest)) /\ asked its c.
Proof.
  intros F (P & SH) L. unfold flowSetLine in L. destruct (parse_total flowSetOpts (line its tail)) as (r & R); [vm_compute; discriminate|].
  rewrite R in L. cbn [obind] in L. destruct r as [| |vals ws]; try discriminate.
  destruct (line_opts its tail F vals ws R) as (h & name & target & prio & protocols & dsts & srcs & dports & sports & match_ & udpencap & -> & G).
  set (o := mkSO name target prio protocols dsts srcs dports sports match_ udpencap) in *.
  destruct (cmdFlowSet o) as [s'| | |] eqn:C; try discriminate. cbn [obind] in L. inversion L; subst s'.
  destruct (client_to_server o s rest) as (c & RD & D); [|exact C|exists c; split; [exact RD|eapply given_asked; eauto]].
  assert (PV : forall n v, value_of flowSetOpts its n (Some v) -> plain v) by (intros n v (i & o' & _ & _ & H); eapply value_plain; eauto).
  assert (PO : forall n v, value_of flowSetOpts its n v -> plain_opt v) by (intros n [v|] H; [eapply PV; eauto|exact Logic.I]).
  destruct G as (G1 & G2 & G3 & G4 & G5 & G6 & G7 & G8 & G9 & G10). unfold opts_ok.
  repeat split; try (eapply PO; eauto; fail); try (eapply PV; eauto; fail).
  - apply (SH "name"%string); [cbn; auto|exact G1].
  - destruct (o_prio o) as [v|] eqn:E; [|exact Logic.I]. apply (SH "prio"%string); [cbn; auto|exact G3].
  - destruct (o_udpencap o) as [v|] eqn:E; [|exact Logic.I]. apply (SH "udpencap"%string); [cbn; auto|exact G10].
Qed.

(** Nothing is sent for a line that is not understood, and what is sent for
    is understood *)
Lemma flow_set_sent words s : flowSetLine words = Ok (Some s) ->
  exists its tail, words = line its tail /\ Forall (item_ok flowSetOpts) its /\ forall i, ~ missing flowSetOpts its i.
Proof.
  intros L. unfold flowSetLine in L. destruct (parse_total flowSetOpts words) as (r & R); [vm_compute; discriminate|].
  rewrite R in L. cbn [obind] in L. destruct r as [| |vals ws]; try discriminate.
  destruct (accepted_line _ _ _ _ flowSet_ok R) as (its & tail & -> & F & M & _). exists its, tail. auto.
Qed.
