(** Fragments on the host (C79): the fragment table, and the steps. *)
From Coq Require Import String.
From Verif Require Import Base Lists Cstr_Model IpKey_Model IpKey_Spec IpKey_Proofs IpKey2_Proofs Match_Spec Match_Proofs Maglev_Model Flow_Model Flow_Spec Flow_Proofs Flow2_Proofs
  Remote_Model FlowLb_Model FlowLb_Spec FlowLb4_Proofs Lb_Model Lb_Spec Lb_Proofs Lb2_Proofs Lb3_Proofs Fwmark_Spec Fwmark2_Proofs Steer_Spec Steer_Proofs FlowLb_Proofs
  Client_Spec Start_Model Start_Spec Lines_Model Lines_Spec Host_Model Host_Spec Host2_Proofs Host3_Proofs Host4_Proofs Host5_Proofs Host6_Proofs Opt_Model Opt_Spec Frags_Spec Frags_Proofs.
From Verif Require Conntrack_Spec Conntrack2_Proofs Lines2_Proofs Frag_Model Frag_Spec Frag_Proofs Frag2_Proofs Frag3_Proofs Steer2_Proofs.

(** ** The key of a fragment *)
Lemma first_key enc eth data f l4 id : first_frag enc eth data f l4 id -> getHashKey (S (length data)) enc eth data = Ok (Some (1, mk_flow_key f, Some (id_bytes id))).
Proof.
  intros (FO & PT & [(-> & (s4 & d4 & Es & Ed & H4) & PA & EN)|(-> & -> & H6 & SP & DP)]).
  - destruct PT as [(_ & s & d & Es' & Ed' & F)|(X & _)]; [|discriminate].
    destruct F as (IL & ZL & hl & proto & mf & fo & HH & HF & HI & -> & ->).
    destruct (ipv4_first_key (S (length data)) enc data f s4 d4 l4 FO Es Ed H4 HF PA EN) as (fi & E). rewrite E.
    assert (F : ipv4_fragment data true s d id) by (split; [exact IL|split; [exact ZL|]; exists hl, proto, true, 0; auto]).
    destruct (ipv4_first _ _ _ _ _ _ _ _ _ F E) as (_ & -> & _). reflexivity.
  - assert (PP := proj1 (proj2 (proj2 FO))). destruct (fl_dport f) as [|hi [|lo [|]]] eqn:DE; try (destruct FO as (_ & _ & _ & _ & (X & _)); rewrite DE in X; discriminate).
    assert (N : exists n, length data = S n). { destruct data as [|z data]; [|cbn; eauto]. destruct H6 as (_ & _ & A & _). unfold at_ in A. cbn in A. lia. }
    destruct N as (n & EL). rewrite EL. destruct (ipv6_first_key n data _ _ _ _ hi lo H6 PP DP) as (fi & E). 
    destruct (ipv6_first _ _ _ _ _ _ _ _ _ _ H6 E) as (_ & -> & _). rewrite E. unfold mk_flow_key. rewrite SP, DE. reflexivity.
Qed.
Lemma other_key enc eth data a b id : part eth data false a b id ->
  exists rc kk fi, getHashKey (S (length data)) enc eth data = Ok (Some (rc, kk, fi)) /\ Z.land rc 3 <> 0 /\ Z.land rc 1 = 0 /\ key_bytes kk = datagram a b id /\ hashKeyAddresses kk = djb2 (a ++ b).
Proof.
  intros PT. destruct (part_other enc eth data a b id PT) as (rc & kk & fi & E & S & D & R1 & R2 & R3). exists rc, kk, fi. split; [exact E|]. split; [exact R1|]. split; [exact R2|].
  cbn [d_src d_dst d_id] in *. unfold key_bytes, hashKeyAddresses. rewrite S, D, R3. auto.
Qed.
Lemma is_fragment enc eth data first a b id rc kk fi : part eth data first a b id -> getHashKey (S (length data)) enc eth data = Ok (Some (rc, kk, fi)) -> fragment_of enc eth data a b.
Proof. intros P E. exists first, id. split; [exact P|]. intros _. exists rc, kk, fi. split; [exact E|]. apply (part_key _ _ _ _ _ _ _ _ _ _ P E). Qed.

(** ** The fragment table *)
Definition knows (h : hconf) (ft : Frag_Model.sys) (t : Z) (m : memory) : Prop :=
  Frag_Spec.conf_seq (h_frag h) /\ Frag_Model.g_ttl (h_frag h) = y_ttl m /\ Frag_Model.g_mtu (h_frag h) = y_mtu m /\
  exists tr, Frag_Proofs.Inv (h_frag h) tr ft [Frag_Model.Idle] [] /\ Frag_Proofs.Bk (h_frag h) ft /\ Frag3_Proofs.Link (h_frag h) t ft (y_map m).
Lemma knows_later h ft t t' m : t <= t' -> knows h ft t m -> knows h ft t' m.
Proof. intros L (A & B & C & tr & I & K & LK). split; [exact A|]. split; [exact B|]. split; [exact C|]. exists tr. split; [exact I|]. split; [exact K|]. eapply Frag3_Proofs.Link_later; eauto. Qed.
Lemma knows_call h ft t m c done : knows h ft (Frag_Model.c_now c) m -> t <= Frag_Model.c_now c -> 0 <= Frag_Model.c_now c < two64 -> exists an sm ft' ob,
  Frag_Spec.call_spec True True (y_ttl m) (y_mtu m) (y_map m) c done an sm /\ Frag_Model.call_op (h_frag h) ft c done = Ok (ft', ob) /\
  retOf ob = Some (Frag_Spec.an_rc an, Frag_Spec.an_val an) /\ knows h ft' (Frag_Model.c_now c) (mkMem (y_ttl m) (y_mtu m) sm).
Proof.
  intros (A & B & C & tr & I & K & LK) _ T.
  assert (Ht : 0 <= Frag_Model.g_ttl (h_frag h) < two64).
  { unfold Frag_Model.g_ttl, u32. pose proof (Z.mod_pos_bound (Frag_Model.g_millis (h_frag h) * 1000000) two32 ltac:(reflexivity)). unfold two64, two32 in *. lia. }
  destruct (Frag3_Proofs.call_ok (h_frag h) tr ft (y_map m) c done A Ht T I K LK) as (an & sm & SP & ft' & ob & E & I' & K' & L' & R & _).
  exists an, sm, ft', ob. rewrite B, C in SP. split.
  { destruct c; cbn [Frag_Spec.call_spec] in *; [| |]; inversion SP; subst; try (econstructor; eauto; fail); try (eapply Frag_Spec.os_store; eauto; fail); try (eapply Frag_Spec.os_big; eauto; fail); try (eapply Frag_Spec.os_lost; eauto; fail). }
  split; [exact E|]. split; [apply Steer2_Proofs.ret_rc; exact R|]. split; [exact A|]. split; [exact B|]. split; [exact C|]. exists (tr ++ ob). auto.
Qed.
Lemma knows_new h : Frag_Spec.conf_seq (h_frag h) -> forall t, 0 <= t -> knows h (Frag_Model.fragTableCreate (h_frag h)) t (mkMem (Frag_Model.g_ttl (h_frag h)) (Frag_Model.g_mtu (h_frag h)) Frag_Spec.sempty).
Proof.
  intros Gs t T. split; [exact Gs|]. split; [reflexivity|]. split; [reflexivity|]. destruct (Frag2_Proofs.start_ok (h_frag h) 1 (proj1 Gs)) as [I B]. cbn [Frag_Model.start Frag_Model.w_sys Frag_Model.w_pcs repeat] in *.
  exists []. split; [exact I|]. split; [exact B|]. apply (Frag3_Proofs.Link_later _ 0); [|exact T]. destruct Gs as [[G1 _] _]. exists Conntrack_Spec.empty. cbn [Frag_Model.fragTableCreate Frag_Model.s_ct y_map].
  split; [apply Conntrack2_Proofs.create_inv; lia|]. split; [apply Conntrack2_Proofs.create_rel|]. split; [intros k e [H _]; discriminate|intros k x H; discriminate].
Qed.
Lemma first_eq h now done k id x s c ft ob rc v : c = Frag_Model.CFirst now (key_bytes (with_id k id)) x true -> Frag_Model.call_op (h_frag h) (t_ft s) c done = Ok (ft, ob) -> retOf ob = Some (rc, v) ->
  runp (firstFragment h now done k (Some id) x) s = after [] (runp (Ret (Verdict (if rc =? 0 then x else -1))) (set_ft s ft (if h_tun h then handedOf ob else []))).
Proof. intros -> E R. unfold firstFragment. apply run_act. rewrite E, R. reflexivity. Qed.
Lemma other_eq h now done k data s c ft ob rc v : c = Frag_Model.CStore now (key_bytes k) data -> Frag_Model.call_op (h_frag h) (t_ft s) c done = Ok (ft, ob) -> retOf ob = Some (rc, v) ->
  rc = 0 /\ v <> None \/ rc <> 0 /\ v = None ->
  runp (otherFragment h now done k data) s = after [] (runp (Ret (Verdict (match v with Some v => v | None => -1 end))) (set_ft s ft [])).
Proof.
  intros -> E R H. unfold otherFragment. apply run_act. rewrite E, R. destruct H as [(-> & V)|(N & ->)]; [destruct v; [reflexivity|congruence]|destruct rc; [congruence| |]; reflexivity].
Qed.
Lemma run_first h now done k id x s t m K : knows h (t_ft s) t m -> t <= now < two64 -> 0 <= t -> K = key_bytes (with_id k id) ->
  exists an sm ft tun, Frag_Spec.first_step True (y_ttl m) (y_map m) now K x true an sm /\
    runp (firstFragment h now done k (Some id) x) s = Some (Verdict (if Frag_Spec.an_rc an =? 0 then x else -1), set_ft s ft tun, []) /\ knows h ft now (mkMem (y_ttl m) (y_mtu m) sm).
Proof.
  intros KN T T0 ->. destruct (knows_call h (t_ft s) t m (Frag_Model.CFirst now (key_bytes (with_id k id)) x true) done) as (an & sm & ft & ob & SP & E & R & K'); [apply (knows_later _ _ t); [cbn; lia|exact KN]|cbn; lia|cbn; lia|].
  exists an, sm, ft. eexists. split; [exact SP|]. split; [|exact K']. rewrite (first_eq _ _ _ _ _ _ _ _ _ _ _ _ eq_refl E R). reflexivity.
Qed.
Lemma other_answer P Q ttl mtu m now k d done an sm : Frag_Spec.other_step P Q ttl mtu m now k d done an sm ->
  Frag_Spec.an_rc an = 0 /\ Frag_Spec.an_val an <> None \/ Frag_Spec.an_rc an <> 0 /\ Frag_Spec.an_val an = None.
Proof. intros H. inversion H; subst; cbn; try (left; split; [reflexivity|discriminate]); right; split; try reflexivity; discriminate. Qed.
Lemma run_other h now done k data s t m : knows h (t_ft s) t m -> t <= now < two64 -> 0 <= t ->
  exists an sm ft, Frag_Spec.other_step True True (y_ttl m) (y_mtu m) (y_map m) now (key_bytes k) data done an sm /\
    runp (otherFragment h now done k data) s = Some (Verdict (match Frag_Spec.an_val an with Some v => v | None => -1 end), set_ft s ft [], []) /\ knows h ft now (mkMem (y_ttl m) (y_mtu m) sm).
Proof.
  intros KN T T0. destruct (knows_call h (t_ft s) t m (Frag_Model.CStore now (key_bytes k) data) done) as (an & sm & ft & ob & SP & E & R & K'); [apply (knows_later _ _ t); [cbn; lia|exact KN]|cbn; lia|cbn; lia|].
  exists an, sm, ft. split; [exact SP|]. split; [|exact K']. rewrite (other_eq _ _ _ _ _ _ _ _ _ _ _ eq_refl E R (other_answer _ _ _ _ _ _ _ _ _ _ _ SP)). reflexivity.
Qed.

(** ** The packet of a process *)
Definition with_st (j : job) (s : state) : job := match j with JLb c _ => JLb c s | JFlow h _ => JFlow h s end.
Lemma at_job o k j nw done eth data v s' ev : o_proc o k = Some j -> runp (prog_of j nw done eth data) (now o (st_of j)) = Some (Verdict v, s', ev) ->
  odo o (OPacket k nw done eth data) = Ok (mkHost (o_fs o) (o_next o) (setProc (o_proc o) k (Some (with_st j s'))), Marked v).
Proof. intros J R. cbn [odo]. unfold onPacket. rewrite J. destruct j; cbn [prog_of st_of with_st] in *; rewrite R; reflexivity. Qed.
Definition body (j : job) (nw : Z) (done : bool) (eth : Z) (data : list Z) (rc : Z) (kk : key) (fi : option (list Z)) : prog :=
  match j with JLb g _ => balance g nw done rc kk fi | JFlow h _ => classify h nw done eth data rc kk fi end.
Lemma tier_here h kk local s : (forall r own, h_tier h = Some (r, own) -> Lb_Spec.table_ok (t_mem s r) /\
    exists x, (forall none, mark_or none (table_mark (t_mem s r) (hashKeyAddresses kk)) = if x <? 0 then none else x) /\ (x < 0 \/ x = own)) -> runp (tier h kk local) s = runp local s.
Proof.
  unfold tier. destruct (h_tier h) as [[r own]|]; [|reflexivity]. intros H. destruct (H r own eq_refl) as (TO & x & X & XO).
  destruct (run_mark (fun _ => Some r) (hashKeyAddresses kk) (fun fw => if (0 <=? fw) && negb (fw =? own) then Ret (Verdict fw) else local) s r eq_refl TO) as (y & -> & Y).
  pose proof (X (-1)) as X1. pose proof (X (-2)) as X2. rewrite Y in X1, X2.
  assert (Z0 : ((0 <=? y) && negb (y =? own))%bool = false); [|rewrite Z0; reflexivity].
  destruct (Z.ltb_spec y 0); [replace (0 <=? y) with false by lia; reflexivity|]. destruct (Z.ltb_spec x 0); [lia|]. replace (y =? own) with true by lia. rewrite andb_false_r. reflexivity.
Qed.
Lemma prog_here j nw done eth data rc kk fi s : getHashKey (S (length data)) (enc_of j) eth data = Ok (Some (rc, kk, fi)) -> Z.land rc 3 <> 0 ->
  (forall r own, h_tier (conf_of j) = Some (r, own) -> Lb_Spec.table_ok (t_mem s r) /\
    exists x, (forall none, mark_or none (table_mark (t_mem s r) (hashKeyAddresses kk)) = if x <? 0 then none else x) /\ (x < 0 \/ x = own)) ->
  runp (prog_of j nw done eth data) s = runp (if Z.land rc 1 =? 0 then otherFragment (conf_of j) nw done kk data else body j nw done eth data rc kk fi) s.
Proof.
  intros K R T. apply Z.eqb_neq in R. destruct j as [c s0|h s0]; cbn [prog_of enc_of conf_of body] in *.
  - unfold lbPacket. rewrite K, R. apply tier_here. exact T.
  - unfold packet. rewrite K, R. apply tier_here. exact T.
Qed.
Lemma job_ft rd next b o j v ft tun : job_rel rd next b j v -> job_rel rd next b (with_st j (set_ft (now o (st_of j)) ft tun)) v.
Proof.
  intros H. pose proof (job_now rd next b o j v H) as N. destruct j as [c s|h s], v as [m no en r|m no nl L F]; cbn [job_rel with_st st_of] in *; try tauto.
  destruct N as (H1 & H2 & H3 & H4 & H5 & H6 & nw & [I ST DI TI] & H8). repeat (split; [assumption|]). exists nw. split; [|exact H8].
  constructor; [apply (inv_ext (now o s)); auto|exact ST|exact DI|exact TI].
Qed.
