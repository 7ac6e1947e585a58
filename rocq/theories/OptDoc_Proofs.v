(** Defaults and required options (C68, C75): proofs. *)
From Coq Require Import String.
From Verif Require Import Base Lists Cstr_Model IpKey_Model Rangeset_Model Remote_Model Opt_Model Opt_Spec Opt_Proofs Opt2_Proofs Util_Proofs Flow_Model FlowLb_Model OptDoc_Spec
  Stats_Model Lb_Model Start_Model Start_Spec Start_Proofs Start2_Proofs Start4_Proofs.
From Coq Require Import Lia.
From Verif Require Frag_Model.

Definition same_text (d : option chars) (s : string) : bool := match d with Some x => streq x (str s) | None => false end.
Definition as_said (o : opt) (a : absent) : bool :=
  match a with
  | Default s => negb (p_req o) && same_text (p_default o) s
  | Nothing => negb (p_req o) && match p_default o with None => true | _ => false end
  | Needed => p_req o
  end.
Definition said (opts : list opt) (x : string * absent) : bool :=
  match find (fun o => streq (p_name o) (str (fst x))) opts with Some o => as_said o (snd x) | None => false end.
Lemma all_said : forallb (fun x => forallb (said (fst x)) (snd x)) if_absent = true.
Proof. vm_compute. reflexivity. Qed.
Lemma absent_tables : Forall table_ok (map fst if_absent).
Proof. cbn [map fst if_absent]. repeat (constructor; [apply table_okb; vm_compute; reflexivity|]). constructor. Qed.

Lemma absent_ok opts ds n a its tail : In (opts, ds) if_absent -> In (n, a) ds -> Forall (item_ok opts) its -> ~ on_line opts its n ->
  match a with
  | Default s => value_of opts its n (Some (str s))
  | Nothing => value_of opts its n None
  | Needed => parseOptions opts (line its tail) = Ok Refused
  end.
Proof.
  intros I J F N. pose proof all_said as S. rewrite forallb_forall in S. specialize (S _ I). cbn [fst snd] in S. rewrite forallb_forall in S. specialize (S _ J).
  unfold said in S. cbn [fst snd] in S. destruct (find _ opts) as [o|] eqn:E; [|discriminate]. apply find_some in E. destruct E as [EI EN]. apply streq_eq in EN.
  apply In_znth in EI. destruct EI as [i EI].
  assert (NM : forall it, In it its -> ~ mentions opts it i) by (intros it K M; apply N; exists it, i, o; auto).
  assert (V : forall v, v = p_default o -> value_of opts its n v) by (intros v ->; exists i, o; split; [exact EI|]; split; [exact EN|]; right; split; [exact NM|]; exists o; auto).
  destruct a as [s| |]; cbn [as_said] in S.
  - apply andb_true_iff in S. destruct S as [_ S]. apply V. unfold same_text in S. destruct (p_default o) as [x|]; [|discriminate]. apply streq_eq in S. subst x. reflexivity.
  - apply andb_true_iff in S. destruct S as [_ S]. apply V. destruct (p_default o); [discriminate|reflexivity].
  - apply (line_missing opts its tail i).
    + pose proof absent_tables as T. rewrite Forall_forall in T. apply T. apply in_map_iff. exists (opts, ds). auto.
    + exact F.
    + exists o. auto.
Qed.

Definition pingOpt : opt := val "promiscuous_ping" "no".
Lemma ping_at o : znth flowlbOpts 5 = Some o -> o = pingOpt.
Proof. intros H. assert (K : Some pingOpt = Some o) by (rewrite <- H; reflexivity). injection K as <-. reflexivity. Qed.
Lemma ping_asked E i words acts h qs ql m r : cmdFlowLb E i words = Ok (acts, Serving h qs ql m r) ->
  exists its tail, words = line its tail /\ Forall (item_ok flowlbOpts) its /\ (h_ping h = true <-> on_line flowlbOpts its "promiscuous_ping").
Proof.
  destruct (parse_ok flowlbOpts words) as (x & P); [cbn; lia|]. unfold cmdFlowLb. rewrite P. cbn [obind]. destruct x as [| |vals rest]; try discriminate.
  destruct (flowlb_vals _ _ _ P) as (its & tail & v0 & lbshm & mtu & tun & reasm & ping & notargets & nolb & mode & queue & qlen & ftshm & size & buckets & frag & ttl & v16 & EL & F & _ & -> & V).
  intros H. destruct (tierOf E lbshm) as [tr|] eqn:TT; [|discriminate].
  destruct (serve_only _ _ _ _ _ _ _ _ _ _ _ H) as (_ & _ & _ & _ & _ & fc & b & ->). cbn [h_ping].
  destruct flowlb_table as [TO _]. exists its, tail. split; [exact EL|]. split; [exact F|].
  pose proof (V 5 _ "promiscuous_ping"%string _ eq_refl eq_refl eq_refl) as (j & o & O & NM & HV).
  assert (j = 5) by (apply (names_unique flowlbOpts j 5 o pingOpt); [apply TO|exact O|reflexivity|exact NM]). subst j.
  assert (o = pingOpt) by (apply ping_at; exact O). subst o.
  destruct HV as [(pre & it & post & EI & G & _)|(NO & o' & O' & EV)].
  - assert (IN : In it its) by (rewrite EI; apply in_or_app; right; left; reflexivity).
    assert (VN : ping = None).
    { rewrite Forall_forall in F. specialize (F it IN). destruct it as [two a x|two a x|two a|w]; cbn [gives] in G.
      - destruct G as [D _]. destruct F as (j & o & D' & Z & NF & _). pose proof (denotes_fun _ _ _ _ TO D D'). subst j. assert (o = pingOpt) by (apply ping_at; exact Z). subst o. destruct NF. right. reflexivity.
      - destruct G as [D _]. destruct F as (_ & j & o & D' & Z & NF & _). pose proof (denotes_fun _ _ _ _ TO D D'). subst j. assert (o = pingOpt) by (apply ping_at; exact Z). subst o. destruct NF. right. reflexivity.
      - apply G.
      - contradiction. }
    subst ping. split; [intros _|reflexivity]. exists it, 5, pingOpt. split; [exact IN|]. split; [reflexivity|]. split; [reflexivity|]. exists None. exact G.
  - assert (o' = pingOpt) by (apply ping_at; exact O'). subst o'. subst ping. split; [discriminate|]. intros (it & j & o & IN & Z & EN & M).
    assert (j = 5) by (apply (names_unique flowlbOpts j 5 o pingOpt); [apply TO|exact Z|reflexivity|exact EN]). subst j. destruct (NO it IN M).
Qed.
(** Without any option *)
Lemma plain_lb E i t own : e_shm E (str "nfqlb") = Some (t, own) -> cmdLb E i [] =
  Ok ([HTrunc (str "ftshm"); HZero (str "ftshm"); HReady i (str "ftshm") (Frag_Model.mkConf 500 500 0 1500 200)],
      Serving (mkL (mkH false 1 (-1) (-1) None (Frag_Model.mkConf 500 500 0 1500 200) false false (e_lib E)) 0 t) [2] 1024 1500 0).
Proof. intros S. unfold cmdLb. destruct (parseOptions lbOpts []) as [x| | |] eqn:P; vm_compute in P; try discriminate. injection P as <-. cbn [obind]. unfold str in S. cbn in S. rewrite S. reflexivity. Qed.
