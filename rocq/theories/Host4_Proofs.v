(** The host (C79): the lines of flow clients. *)
From Coq Require Import String.
From Verif Require Import Base Lists Cstr_Model Util_Spec Util_Proofs Flow2_Proofs Maglev_Model Flow_Model Flow_Spec Remote_Model Remote_Spec FlowLb_Model FlowLb_Spec FlowLb_Proofs FlowLb2_Proofs Requests_Spec Requests_Proofs
  Client_Model Client_Spec Client_Proofs Client2_Proofs Start_Model Host_Proofs Lines_Model Lines_Spec Lines_Proofs Host_Model Host_Spec Host2_Proofs Host3_Proofs Opt_Model Opt_Spec Opt_Proofs.
From Verif Require Lines2_Proofs Frag_Model Flow_Proofs.

(** ** What is sent *)
Lemma value_fun k its n v v' : value_of (options_of k) its n v -> value_of (options_of k) its n v' -> v = v'.
Proof.
  intros (i & o & Z & N & H) (i' & o' & Z' & N' & H').
  assert (X : i = i'). { eapply (names_unique (options_of k)); [exact (proj1 (proj2 (options_ok k)))|exact Z|exact Z'|congruence]. } subst i'.
  eapply value_unique; eauto. exact (options_ok k).
Qed.
Lemma line_value_fun k its n v v' : line_value k its n v -> line_value k its n v' -> v = v'.
Proof.
  assert (H : forall n v, value_of (options_of k) its n v -> In (str n) (map p_name (options_of k))).
  { intros m w (i & o & Z & N & _). rewrite <- N. apply in_map. eapply znth_In; eauto. }
  intros [A|(NA & ->)] [B|(NB & ->)]; auto.
  - eapply value_fun; eauto.
  - destruct NB. eapply H; eauto.
  - destruct NA. eapply H; eauto.
Qed.
Lemma trimmed_fun t u u' : trimmed t u -> trimmed t u' -> u = u'.
Proof.
  intros (n & -> & H) (m & E & H'). revert m E. induction n as [|n IH]; intros [|m] E; cbn [repeat app] in E; auto.
  - subst u. destruct H. reflexivity.
  - subst u'. destruct H'. reflexivity.
  - injection E as E. eauto.
Qed.
Lemma items_fun d v r r' : items d v r -> items d v r' -> r = r'.
Proof.
  unfold items. destruct v as [v|]; [|congruence]. intros (l & P & A) (l' & P' & B). rewrite (pieces_unique _ _ _ _ P' P) in B. clear P P' l'.
  destruct r as [r|], r' as [r'|]; auto.
  - destruct A as (_ & A), B as (_ & B). f_equal. revert r' B. induction A as [|t u l r T A IH]; intros r' B; inversion B; subst; auto. f_equal; [eapply trimmed_fun; eauto|auto].
  - destruct A as (N & _). contradiction.
  - destruct B as (N & _). contradiction.
Qed.
Lemma told_fun k its c c' : told k its c -> told k its c' -> c = c'.
Proof.
  intros (A1 & A2 & A3 & (p4 & A4 & B4) & (p5 & A5 & B5) & A6 & A7 & (p8 & A8 & B8) & (p9 & A9 & B9) & (p10 & A10 & B10) & (p11 & A11 & B11)).
  intros (C1 & C2 & C3 & (q4 & C4 & D4) & (q5 & C5 & D5) & C6 & C7 & (q8 & C8 & D8) & (q9 & C9 & D9) & (q10 & C10 & D10) & (q11 & C11 & D11)).
  rewrite (line_value_fun _ _ _ _ _ C4 A4) in D4. rewrite (line_value_fun _ _ _ _ _ C5 A5) in D5. rewrite (line_value_fun _ _ _ _ _ C8 A8) in D8.
  rewrite (line_value_fun _ _ _ _ _ C9 A9) in D9. rewrite (line_value_fun _ _ _ _ _ C10 A10) in D10. rewrite (line_value_fun _ _ _ _ _ C11 A11) in D11.
  pose proof (line_value_fun _ _ _ _ _ A2 C2) as E2. pose proof (line_value_fun _ _ _ _ _ A3 C3) as E3. pose proof (line_value_fun _ _ _ _ _ A6 C6) as E6.
  pose proof (line_value_fun _ _ _ _ _ A7 C7) as E7. pose proof (items_fun _ _ _ _ B5 D5) as E5. pose proof (items_fun _ _ _ _ B8 D8) as E8.
  pose proof (items_fun _ _ _ _ B9 D9) as E9. pose proof (items_fun _ _ _ _ B10 D10) as E10. destruct c, c'. cbn in *. congruence.
Qed.

Lemma set_line its tail : Forall (item_ok flowSetOpts) its -> forall vals ws, parseOptions flowSetOpts (line its tail) = Ok (Parsed vals ws) ->
  exists h n t pr p d s dp sp m u, vals = [h; Some n; Some t; pr; p; d; s; dp; sp; m; u] /\
    value_of flowSetOpts its "target" (Some t) /\ value_of flowSetOpts its "protocols" p /\ value_of flowSetOpts its "dsts" d /\
    value_of flowSetOpts its "srcs" s /\ value_of flowSetOpts its "dports" dp /\ value_of flowSetOpts its "sports" sp /\ value_of flowSetOpts its "match" m /\
    value_of flowSetOpts its "udpencap" u.
Proof.
  intros F vals ws R. destruct (Client_Proofs.line_vals FlowSet its tail vals ws F R) as (L & V). unfold zlen in L. cbn [options_of flowSetOpts length] in L.
  destruct vals as [|v0 [|v1 [|v2 [|v3 [|v4 [|v5 [|v6 [|v7 [|v8 [|v9 [|va [|]]]]]]]]]]]]; cbn [length] in L; try lia.
  destruct (V 1 _ v1 eq_refl eq_refl) as (V1 & N1). destruct v1 as [n|]; [|destruct N1; reflexivity].
  destruct (V 2 _ v2 eq_refl eq_refl) as (V2 & N2). destruct v2 as [t|]; [|destruct N2; reflexivity].
  destruct (V 4 _ v4 eq_refl eq_refl) as (V4 & _). destruct (V 5 _ v5 eq_refl eq_refl) as (V5 & _). destruct (V 6 _ v6 eq_refl eq_refl) as (V6 & _).
  destruct (V 7 _ v7 eq_refl eq_refl) as (V7 & _). destruct (V 8 _ v8 eq_refl eq_refl) as (V8 & _). destruct (V 9 _ v9 eq_refl eq_refl) as (V9 & _).
  destruct (V 10 _ va eq_refl eq_refl) as (Va & _).
  exists v0, n, t, v3, v4, v5, v6, v7, v8, v9, va. split; [reflexivity|].
  repeat split; (eexists; eexists; split; [|split; [|eassumption]]; reflexivity).
Qed.
Lemma prefix_own p : forall q, prefix p (p ++ q) = true.
Proof. induction p as [|c p IH]; intros q; [reflexivity|]. cbn [app prefix]. rewrite Z.eqb_refl. apply IH. Qed.
Lemma casestr_in p s q t : any_case s t -> t = str "sctp" -> casestr t (p ++ s ++ q) = true.
Proof.
  intros A E. induction p as [|c p IH].
  - cbn [app]. assert (P : prefix t (map lower (s ++ q)) = true).
    { rewrite map_app. replace (map lower s) with t; [apply prefix_own|]. symmetry. apply (Flow_Proofs.lower_case s t A). subst t. cbn. repeat constructor; lia. }
    destruct (s ++ q); cbn [casestr]; rewrite P; reflexivity.
  - cbn [app casestr]. rewrite IH. apply orb_true_r.
Qed.
Lemma set_sends its tail : Forall (item_ok flowSetOpts) its -> (forall i, ~ missing flowSetOpts its i) -> set_checked its ->
  exists s, sends FlowSet (line its tail) = Ok (Some s).
Proof.
  intros F M (C1 & C2 & C3 & C4). destruct (line_read _ its tail (options_ok FlowSet) F M) as (vals & R & _). cbn [options_of] in R. cbn [sends]. unfold flowSetLine. rewrite R. cbn [obind].
  destruct (set_line its tail F vals _ R) as (h & n & t & pr & p & d & s & dp & sp & m & u & -> & V2 & V4 & V5 & V6 & V7 & V8 & V9 & Va).
  unfold cmdFlowSet. cbn [o_target o_protocols o_dsts o_srcs o_dports o_sports o_match o_udpencap given andb].
  specialize (C1 t V2). replace (255 <? zlen t) with false by lia.
  assert (X : forall x v, In x ["protocols"; "dsts"; "srcs"; "dports"; "sports"; "match"]%string -> value_of flowSetOpts its x v -> too_long v = false).
  { intros x [v|] I H; [|reflexivity]. cbn [too_long]. unfold MAX_ARG_LEN. specialize (C2 x v I H). lia. }
  rewrite (X "protocols"%string p), (X "dsts"%string d), (X "srcs"%string s), (X "dports"%string dp), (X "sports"%string sp), (X "match"%string m) by (cbn [In]; auto 10).
  assert (UE : given u && match p with None => true | Some p => negb (casestr (str "sctp") p) end = false).
  { destruct u as [u|]; [|reflexivity]. destruct (C4 u Va) as (q1 & q2 & q3 & Q & AC). rewrite (value_fun FlowSet its _ _ _ V4 Q). rewrite (casestr_in _ _ _ _ AC eq_refl). reflexivity. }
  rewrite UE. cbn [orb]. destruct ((given dp || given sp) && negb (given p)) eqn:G; [|cbn [obind]; eauto]. exfalso.
  apply andb_true_iff in G. destruct G as (G1 & G2). destruct p as [p|]; [discriminate|]. apply orb_true_iff in G1. destruct G1 as [G1|G1].
  - destruct dp as [dp|]; [|discriminate]. destruct (C3 "dports"%string dp) as (q & Q); [cbn; auto|exact V7|]. discriminate (value_fun FlowSet its _ _ _ Q V4).
  - destruct sp as [sp|]; [|discriminate]. destruct (C3 "sports"%string sp) as (q & Q); [cbn; auto|exact V8|]. discriminate (value_fun FlowSet its _ _ _ Q V4).
Qed.
Lemma set_read its tail c : Forall (item_ok flowSetOpts) its -> (forall i, ~ missing flowSetOpts its i) -> carried FlowSet its tail -> set_checked its -> told FlowSet its c ->
  exists t, sends FlowSet (line its tail) = Ok (Some t) /\ readFlowCmd t = Ok (Some (c, [])) /\ c_action c = Some (str "set") /\ 0 <= c_udpencap c < 65536.
Proof.
  intros F M CA CH T. destruct (set_sends its tail F M CH) as (t & S). exists t. split; [exact S|].
  destruct (client_told FlowSet its tail t [] F CA S) as (c' & R & T' & _). rewrite app_nil_r in R. rewrite (told_fun _ _ _ _ T T'). split; [exact R|].
  split; [apply T'|]. exact (told_udpencap _ _ _ T').
Qed.
Lemma delete_read its tail n : Forall (item_ok nameOpts) its -> value_of nameOpts its "name" (Some n) -> carried FlowDelete its tail ->
  exists t c, sends FlowDelete (line its tail) = Ok (Some t) /\ readFlowCmd t = Ok (Some (c, [])) /\ c_action c = Some (str "delete") /\ c_name c = Some n.
Proof.
  intros F V CA.
  assert (M : forall i, ~ missing (options_of FlowDelete) its i).
  { intros j (o' & Ho' & Rq & NM). pose proof V as (i & o & Ho & En & HV). cbn [options_of] in *.
    assert (i = 1). { eapply (names_unique nameOpts i 1 o (must "name")); [exact (proj1 (proj2 (options_ok FlowDelete)))|exact Ho|reflexivity|exact En]. }
    subst i. assert (j = 1).
    { apply znth_cons_inv in Ho'. destruct Ho' as [(-> & ->)|(k & -> & K & Ho')]; [discriminate|]. apply znth_cons_inv in Ho'.
      destruct Ho' as [(-> & _)|(k2 & -> & K2 & Ho')]; [reflexivity|]. rewrite znth_out in Ho'; [discriminate|]. change (zlen (@nil opt)) with 0. lia. }
    subst j. destruct HV as [(pre & it & post & -> & G & _)|(_ & o2 & Ho2 & E)].
    - apply (NM it); [apply in_or_app; right; left; reflexivity|]. eexists. exact G.
    - cbn in Ho2. injection Ho2 as <-. discriminate. }
  destruct (line_read _ its tail (options_ok FlowDelete) F M) as (vals & R & _). pose proof R as R0. cbn [options_of] in R.
  destruct (Client_Proofs.line_vals FlowDelete its tail vals _ F R0) as (L & VV). unfold zlen in L. cbn [options_of nameOpts length] in L.
  destruct vals as [|v0 [|v1 [|]]]; cbn [length] in L; try lia. destruct (VV 1 _ v1 eq_refl eq_refl) as (V1 & N1). destruct v1 as [n'|]; [|destruct N1; reflexivity].
  assert (S : sends FlowDelete (line its tail) = Ok (Some (cmdFlowDelete n'))) by (cbn [sends]; unfold nameLine; rewrite R; reflexivity).
  destruct (client_told FlowDelete its tail _ [] F CA S) as (c & RD & T & _). rewrite app_nil_r in RD. exists (cmdFlowDelete n'), c. split; [exact S|]. split; [exact RD|].
  split; [apply T|]. destruct T as (_ & T & _). exact (line_value_fun FlowDelete its _ _ _ T (or_introl V)).
Qed.

(** ** Flows and objects *)
Lemma calm_now L o s nw : calm L s nw -> calm L (now o s) nw.
Proof.
  intros [I ST DI TI]. constructor; auto. apply (inv_ext s); auto.
Qed.
Lemma there_now o s t a g : there (now o s) t a g <-> there s t a g.
Proof. unfold there. rewrite (deref_ext s (now o s) a eq_refl). tauto. Qed.
Lemma absent_now o s t : absent s t -> absent (now o s) t.
Proof. intros A a g H. apply (A a g). rewrite <- there_now. exact H. Qed.
Lemma flow_alive L s nw n x : libc_ok L -> calm L s nw -> nw n = Some x -> exists f, findName (t_set s) n = Some f /\ In f (t_set s) /\ f_name f = n /\ f_ref f = a_ref x /\ f_udpencap f = a_udpencap x.
Proof.
  intros HL [I (ops & ans & R & ->) _ _] H. destruct (map_semantics L ops (t_set s) ans HL R) as (ND & _ & M & _). specialize (M n). rewrite H in M.
  destruct (findName (t_set s) n) as [f|] eqn:FN; [|discriminate]. pose proof (proj1 (find_iff _ _ _ ND) FN) as (F1 & F2). exists f. split; [reflexivity|]. split; [exact F1|]. split; [exact F2|]. split; congruence.
Qed.
Lemma flow_not L s nw n : libc_ok L -> calm L s nw -> nw n = None -> findName (t_set s) n = None.
Proof.
  intros HL [I (ops & ans & R & ->) _ _] H. destruct (map_semantics L ops (t_set s) ans HL R) as (ND & _ & M & _). specialize (M n). rewrite H in M.
  destruct (findName (t_set s) n) as [f|]; [discriminate|reflexivity].
Qed.
Lemma flow_now L s nw f : libc_ok L -> calm L s nw -> In f (t_set s) -> exists x, nw (f_name f) = Some x /\ a_ref x = f_ref f.
Proof.
  intros HL [I (ops & ans & R & ->) _ _] H. destruct (map_semantics L ops (t_set s) ans HL R) as (ND & _ & M & _). specialize (M (f_name f)).
  rewrite (proj2 (find_iff _ _ f ND)) in M by auto. destruct (current ops ans (f_name f)) as [x|]; [|discriminate]. exists x. split; [reflexivity|]. congruence.
Qed.
Lemma count_some {A} (p : A -> bool) l : 0 < countb p l -> exists x, In x l /\ p x = true.
Proof.
  intros H. destruct (existsb p l) eqn:E; [apply existsb_exists in E; exact E|]. exfalso. revert H E. unfold countb.
  induction l as [|y l IH]; cbn [filter existsb]; [intros H; cbn in H; lia|]. destruct (p y); [discriminate|]. exact IH.
Qed.
Lemma object_used s nw L a o : calm L s nw -> deref s a = Some o -> exists f, In f (t_set s) /\ f_ref f = a.
Proof.
  intros [I _ _ _] D. pose proof (none_refs s [] I a o D eq_refl) as R. unfold refs in R. rewrite countb_nil in R. rewrite Z.add_0_r in R.
  destruct (count_some _ _ R) as (f & F1 & F2). exists f. split; [exact F1|]. apply Z.eqb_eq in F2. exact F2.
Qed.
Section Flows.
Context (L : libc) (rd : Z -> reader) (next : Z) (s : state) (F : Host_Spec.flows) (nw : chars -> option fargs).
Context (HL : libc_ok L) (CM : calm L s nw) (FR : forall n, flow_rel L rd next s n (F n) (comp F n) (nw n)).
Lemma shared_there t r : shared F t r -> exists a g, there s t a g /\ g < next /\ rd g = r.
Proof.
  intros (n & c & H & T). specialize (FR n). rewrite H in FR. destruct FR as (t' & a & g & _ & (_ & T' & _) & _ & TH & G & R). assert (t' = t) by congruence. subst t'. eauto.
Qed.
Lemma there_shared t a g : there s t a g -> shared F t (rd g) /\ g < next.
Proof.
  intros (o & D & T & R). destruct (object_used s nw L a o CM D) as (f & IN & RF). destruct (flow_now L s nw f HL CM IN) as (x & NX & AX).
  specialize (FR (f_name f)). rewrite NX in FR. destruct (F (f_name f)) as [[c r]|] eqn:FF.
  2:{ exfalso. symmetry in FR. apply comp_some in FR. destruct FR as (q & c & r & _ & _ & _ & ->). cbn [udpArgs a_ref] in AX. apply deref_len in D. lia. }
  destruct FR as (t' & a' & g' & X & (_ & T' & _) & _ & (o' & D' & OT & OR) & G & RR). assert (a' = a) by (injection X as ->; cbn in AX; congruence). subst a'.
  assert (o' = o) by congruence. subst o'. split; [|congruence]. exists (f_name f), c. split; [congruence|congruence].
Qed.
Lemma absent_shared t : (forall r, ~ shared F t r) -> absent s t.
Proof. intros H a g TH. destruct (there_shared t a g TH) as (S & _). exact (H _ S). Qed.
Lemma flow_kept s' nw' n x t a g : calm L s' nw' -> kept s s' -> nw' n = Some x -> a_ref x = a -> there s t a g -> there s' t a g.
Proof.
  intros CM' K N A (o & D & T & R). destruct (flow_alive L s' nw' n x HL CM' N) as (f & _ & F1 & _ & F3 & _). pose proof (deref_len s a o D) as DL.
  pose proof (ref_flow (t_set s') [] f F1) as P. rewrite F3, A in P. destruct (i_live _ _ (cm_inv _ _ _ CM') a) as (o' & D'); [lia|exact P|].
  destruct (K a o' D') as (o2 & D2 & T2 & R2); [lia|]. assert (o2 = o) by congruence. subst o2. exists o'. split; [exact D'|]. split; congruence.
Qed.
(** Flow n as the program has it *)
Lemma flow_udp n : own_name n -> match findName (t_set s) n with
  | None => F n = None
  | Some f => exists c r, F n = Some (c, r) /\ f_udpencap f = c_udpencap c
  end.
Proof.
  intros ON. specialize (FR n). destruct (F n) as [[c r]|] eqn:FN; cbn [flow_rel] in FR.
  - destruct FR as (t & a & g & N & _). destruct (flow_alive L s nw n _ HL CM N) as (f & -> & _ & _ & _ & U). exists c, r. auto.
  - rewrite (comp_own F n ON) in FR. rewrite (flow_not L s nw n HL CM FR). reflexivity.
Qed.
Lemma known_own n c r : F n = Some (c, r) -> own_name n.
Proof. intros H. specialize (FR n). rewrite H in FR. destruct FR as (t & a & g & _ & (_ & _ & _ & ON & _) & _). exact ON. Qed.
(** The flows after flow n was set, or deleted *)
Lemma flows_after rd' s' n e nw' : (forall g, g < next -> rd' g = rd g) -> calm L s' nw' -> kept s s' -> (forall m, m <> n -> F m <> None -> nw' m = nw m) ->
  (forall m, at_name F n e m = None -> nw' m = comp (at_name F n e) m) ->
  flow_rel L rd' (next + 1) s' n e (comp (at_name F n e) n) (nw' n) -> forall m, flow_rel L rd' (next + 1) s' m (at_name F n e m) (comp (at_name F n e) m) (nw' m).
Proof.
  intros E CM' K NW CN FN m. destruct (at_name F n e m) as [[c r]|] eqn:Q; [|exact (CN m Q)]. unfold at_name in Q. destruct (streq m n) eqn:MN.
  { apply streq_eq in MN. subst m. rewrite Q in FN. exact FN. }
  apply streq_neq in MN. specialize (FR m). rewrite Q in FR. destruct FR as (t & a & g & A1 & A2 & A3 & A4 & A5 & A6).
  assert (N' : nw' m = nw m) by (apply NW; congruence). exists t, a, g. rewrite N'. split; [exact A1|]. split; [exact A2|]. split; [exact A3|]. split; [|split; [lia|rewrite E by exact A5; exact A6]].
  apply (flow_kept s' nw' m (cmdArgs c m a)); auto. congruence.
Qed.
Lemma flows_set rd' s' n c r a : (forall g, g < next -> rd' g = rd g) -> calm L s' (upd_set nw c n a) -> kept s s' -> own_name n -> same_udp F n c ->
  flow_rel L rd' (next + 1) s' n (Some (c, r)) None (Some (cmdArgs c n a)) ->
  forall m, flow_rel L rd' (next + 1) s' m (at_name F n (Some (c, r)) m) (comp (at_name F n (Some (c, r))) m) (upd_set nw c n a m).
Proof.
  intros E CM' K ON SU FN. apply flows_after; auto.
  - intros m MN FM. unfold upd_set. unfold upd_now at 1. rewrite (proj2 (streq_neq m n) MN). destruct (c_udpencap c =? 0); [reflexivity|]. unfold upd_now. destruct (streq m (35 :: n)) eqn:Q; [|reflexivity].
    apply streq_eq in Q. subst m. exfalso. destruct (F (35 :: n)) as [[c' r']|] eqn:FF; [|congruence]. exact (known_own _ _ _ FF n eq_refl).
  - intros m MN. assert (NE : m <> n) by (intros ->; unfold at_name in MN; rewrite streq_refl in MN; discriminate). assert (FM : F m = None) by (unfold at_name in MN; rewrite (proj2 (streq_neq m n) NE) in MN; exact MN).
    pose proof (FR m) as FRM. rewrite FM in FRM. cbn [flow_rel] in FRM. unfold upd_set. unfold upd_now at 1. rewrite (proj2 (streq_neq m n) NE).
    destruct (list_eq_dec Z.eq_dec m (35 :: n)) as [->|NC].
    + rewrite comp_at in FRM |- *. unfold at_name. rewrite streq_refl. destruct (Z.eqb_spec (c_udpencap c) 0) as [U0|U0].
      * rewrite FRM. destruct (F n) as [[c' r']|] eqn:FF; [|reflexivity]. rewrite (SU c' r' FF), U0. reflexivity.
      * unfold upd_now. rewrite streq_refl. reflexivity.
    + transitivity (nw m). { destruct (c_udpencap c =? 0); [reflexivity|]. unfold upd_now. rewrite (proj2 (streq_neq m (35 :: n)) NC). reflexivity. }
      rewrite FRM. symmetry. apply comp_ext. intros q ->. unfold at_name. replace (streq q n) with false; [destruct (F q) as [[? ?]|]; auto|]. symmetry. apply streq_neq. congruence.
  - rewrite comp_own by exact ON. unfold upd_set. unfold upd_now at 1. rewrite streq_refl. exact FN.
Qed.
Lemma flows_delete rd' s' n u : (forall g, g < next -> rd' g = rd g) -> calm L s' (upd_del nw n u) -> kept s s' -> own_name n \/ comp F n = None -> (forall c r, F n = Some (c, r) -> u = c_udpencap c) ->
  (F n = None -> u = 0) -> forall m, flow_rel L rd' (next + 1) s' m (at_name F n None m) (comp (at_name F n None) m) (upd_del nw n u m).
Proof.
  intros E CM' K ON US UN.
  assert (OF : forall m, F (35 :: m) = None). { intros m. destruct (F (35 :: m)) as [[c' r']|] eqn:FF; [|reflexivity]. destruct (known_own _ _ _ FF m eq_refl). }
  assert (CE : forall m, m <> 35 :: n -> comp (at_name F n None) m = comp F m).
  { intros m NC. apply comp_ext. intros q ->. unfold at_name. replace (streq q n) with false; [destruct (F q) as [[? ?]|]; auto|]. symmetry. apply streq_neq. congruence. }
  assert (NN : n <> 35 :: n) by (intros X; apply (f_equal (@length Z)) in X; cbn [length] in X; lia).
  assert (NX : upd_del nw n u n = None). { unfold upd_del. destruct (u =? 0); unfold upd_now; rewrite ?(proj2 (streq_neq n (35 :: n)) NN), streq_refl; reflexivity. }
  apply flows_after; auto.
  - intros m MN FM. assert (NC : m <> 35 :: n) by (intros ->; apply FM; apply OF). unfold upd_del. destruct (u =? 0); unfold upd_now; rewrite ?(proj2 (streq_neq m (35 :: n)) NC), (proj2 (streq_neq m n) MN); reflexivity.
  - intros m MN. destruct (list_eq_dec Z.eq_dec m n) as [->|NE].
    + rewrite NX, CE by exact NN. destruct ON as [ON|ON]; [rewrite comp_own by exact ON|rewrite ON]; reflexivity.
    + assert (FM : F m = None) by (unfold at_name in MN; rewrite (proj2 (streq_neq m n) NE) in MN; exact MN). pose proof (FR m) as FRM. rewrite FM in FRM. cbn [flow_rel] in FRM.
      destruct (list_eq_dec Z.eq_dec m (35 :: n)) as [->|NC].
      * rewrite comp_at in FRM |- *. unfold at_name. rewrite streq_refl. unfold upd_del. destruct (Z.eqb_spec u 0) as [U0|U0].
        -- unfold upd_now. rewrite (proj2 (streq_neq (35 :: n) n) NE), FRM. destruct (F n) as [[c' r']|] eqn:FF; [|reflexivity]. rewrite <- (US c' r' eq_refl), U0. reflexivity.
        -- unfold upd_now. rewrite streq_refl. reflexivity.
      * rewrite CE by exact NC. rewrite <- FRM. unfold upd_del. destruct (u =? 0); unfold upd_now; rewrite ?(proj2 (streq_neq m (35 :: n)) NC), (proj2 (streq_neq m n) NE); reflexivity.
  - rewrite NX, CE by exact NN. destruct ON as [ON|ON]; [rewrite comp_own by exact ON|rewrite ON]; reflexivity.
Qed.
Lemma same_found n c : own_name n -> same_udp F n c -> forall f, findName (t_set s) n = Some f -> f_udpencap f = c_udpencap c.
Proof. intros ON SU f H. pose proof (flow_udp n ON) as X. rewrite H in X. destruct X as (c' & r & FN & U). rewrite U. exact (SU c' r FN). Qed.
End Flows.

(** ** The steps *)
Lemma good_acceptable L c n t : good_request L c n t -> 0 <= c_udpencap c < 65536 -> acceptable L c n.
Proof. intros (A & _ & B & C & D & E & G) U. unfold acceptable, close_priority. repeat (split; [assumption|]). assumption. Qed.
Lemma srv_flow rd next b p v k m no nl L F : procs_rel rd next b p v -> v k = Some (SFlow m no nl L F) -> exists h s, p k = Some (JFlow h s) /\ job_rel rd next b (JFlow h s) (SFlow m no nl L F).
Proof. intros P V. specialize (P k). rewrite V in P. destruct (p k) as [[c s|h s]|]; try contradiction. eauto. Qed.
Lemma command_set L c : c_action c = Some (str "set") -> command L c = cmd_set L c.
Proof. intros A. unfold command. rewrite A. reflexivity. Qed.
Lemma command_delete L c : c_action c = Some (str "delete") -> command L c = cmd_delete c.
Proof. intros A. unfold command. rewrite A. reflexivity. Qed.
Lemma ok_end junk : talkEnd junk (firstn 64 (written (str "OK"))) = Ok (ok_text, 0).
Proof. rewrite talk_short; [reflexivity|vm_compute; intuition discriminate|vm_compute; discriminate]. Qed.
Lemma no_end junk b : talkEnd junk (firstn 64 (written (str (no_object b)))) = Ok (str (no_object b) ++ [10], -1).
Proof. destruct b; rewrite talk_short; try reflexivity; vm_compute; intuition discriminate. Qed.

Lemma set_job L rd rd' next b s s' nw F n c t r a g m no nl h :
  h_mode h = m /\ h_notargets h = no /\ h_nolb h = nl /\ h_lib h = L /\ libc_ok L /\ zlen (t_set s) <= 2 * b -> calm L s nw ->
  (forall n, flow_rel L rd next s n (F n) (comp F n) (nw n)) -> (forall g, g < next -> rd' g = rd g) ->
  took_over L s s' (upd_set nw c n a) t a g -> good_request L c n t -> same_udp F n c -> 0 <= c_udpencap c < 65536 -> g < next + 1 -> rd' g = r ->
  job_rel rd' (next + 1) (b + 1) (JFlow h s') (SFlow m no nl L (at_name F n (Some (c, r)))).
Proof.
  intros (H1 & H2 & H3 & H4 & H5 & H6) CM FR E [T1 T2 T3 T4 T5] GR SU U G R. cbn [job_rel]. repeat (split; [assumption|]). split; [lia|].
  exists (upd_set nw c n a). split; [exact T1|]. pose proof GR as (_ & _ & _ & ON & _).
  apply (flows_set L rd next s F nw H5 FR rd' s' n c r a E T1 T2 ON SU).
  exists t, a, g. auto 10.
Qed.
Lemma step_set b o g k its tail junk c m no nl L F n t r : rel b o g -> 2 * b + 5 < 2147483648 ->
  Forall (item_ok flowSetOpts) its -> (forall i, ~ missing flowSetOpts its i) -> carried FlowSet its tail -> set_checked its -> told FlowSet its c ->
  g_srv g k = Some (SFlow m no nl L F) -> good_request L c n t -> same_udp F n c ->
  shared F t r \/ (forall r', ~ shared F t r') /\ (exists x d, object t x /\ g_tab g x = Some d /\ r = Live x) ->
  exists o', odo o (OFlow k (str "flow-set" :: line its tail) junk) = Ok (o', Ended 0 ok_text) /\
    rel (b + 1) o' (mkSite (g_tab g) (at_k (g_srv g) k (with_flows m no nl L (at_name F n (Some (c, r))))) (g_tier g)).
Proof.
  intros (rd & I & P & TP) B FI M CA CH T V GR SU TG. destruct (set_read its tail c FI M CA CH T) as (txt & S & R & AC & U0).
  destruct (srv_flow _ _ _ _ _ _ _ _ _ _ _ P V) as (h & s & PK & H1 & H2 & H3 & H4 & H5 & H6 & nw & CM & FR).
  pose proof GR as (GN & GT & _). pose proof (calm_now L o s nw CM) as CMN.
  cbn [odo]. rewrite streq_refl. unfold flowLine. rewrite S, PK, R. cbn [obind]. rewrite H4, (command_set L c AC).
  assert (BB : zlen (t_set (now o s)) + 4 < 2147483648) by (cbn [now set_env t_set]; lia).
  assert (SF : forall f, findName (t_set (now o s)) n = Some f -> f_udpencap f = c_udpencap c) by (apply (same_found L rd (o_next o) s F nw); auto; apply GR).
  destruct TG as [SH|(NS & x & d & O & TX & ->)].
  - destruct (shared_there L rd (o_next o) s F nw FR t r SH) as (a & gg & TH & GB & GR2).
    assert (GE : gets (now o s) t a gg) by (left; apply there_now; exact TH).
    destruct (set_calm L c n t (now o s) nw a gg H5 (good_acceptable _ _ _ _ GR U0) CMN GT SF BB GE) as (s' & ev & RUN & TO).
    rewrite RUN. change (replyText c "OK") with (Ok (A := chars) (str "OK")). cbn [obind]. rewrite ok_end. cbn [obind fst snd].
    assert (ZO : zlen (t_objs s') = zlen (t_objs s)).
    { rewrite (to_objs _ _ _ _ _ _ _ TO). cbn [now set_env t_objs]. destruct TH as (ob & D & _). apply deref_len in D. replace (a =? zlen (t_objs s) + 1) with false by lia. reflexivity. }
    rewrite znth_out by lia. cbn [mapped obind]. eexists. split; [reflexivity|]. exists rd. split; [exact I|]. cbn [o_next o_proc g_srv].
    split; [|apply (tiers_keep _ _ _ _ _ (JFlow h s)); [apply (tiers_mono rd rd (o_next o)); auto; lia|exact PK|reflexivity]].
    apply procs_set; [apply (procs_mono rd rd (o_next o) _ b); auto; lia|].
    apply (set_job L rd rd (o_next o) b (now o s) s' nw F n c t r a gg); auto; [repeat (split; [assumption|]); exact H6|lia].
  - pose proof (absent_shared L rd (o_next o) s F nw H5 CM FR t NS) as AB.
    pose proof (Lines2_Proofs.inv_open _ _ x t I O) as OP. cbn [w_tab] in OP. rewrite TX in OP. destruct OP as (i & _ & OP & _).
    assert (GE : gets (now o s) t (zlen (t_objs s) + 1) (o_next o)).
    { right. split; [apply absent_now; exact AB|]. cbn [now set_env t_shm t_objs]. rewrite OP. auto. }
    destruct (set_calm L c n t (now o s) nw _ _ H5 (good_acceptable _ _ _ _ GR U0) CMN GT SF BB GE) as (s' & ev & RUN & TO).
    rewrite RUN. change (replyText c "OK") with (Ok (A := chars) (str "OK")). cbn [obind]. rewrite ok_end. cbn [obind fst snd].
    pose proof (to_there _ _ _ _ _ _ _ TO) as (ob & D & OT & OR). unfold deref in D. replace (zlen (t_objs s) + 1 - 1) with (zlen (t_objs s)) in D by lia.
    destruct (znth (t_objs s') (zlen (t_objs s))) as [ob'|]; [|discriminate]. destruct (lb_freed ob'); [discriminate|]. injection D as ->. rewrite OT.
    destruct (mapped_some (o_fs o) (g_tab g) rd (o_next o) t x d I O TX) as (fs & -> & I' & _). cbn [obind]. eexists. split; [reflexivity|].
    exists (at_proc rd (o_next o) (Live x)). split; [exact I'|]. cbn [o_next o_proc g_srv].
    assert (E : forall gg, gg < o_next o -> at_proc rd (o_next o) (Live x) gg = rd gg) by (intros gg; apply above).
    split; [|apply (tiers_keep _ _ _ _ _ (JFlow h s)); [apply (tiers_mono rd _ (o_next o)); auto; lia|exact PK|reflexivity]].
    apply procs_set; [apply (procs_mono rd _ (o_next o) _ b); auto; lia|].
    apply (set_job L rd _ (o_next o) b (now o s) s' nw F n c t (Live x) (zlen (t_objs s) + 1) (o_next o)); auto; [repeat (split; [assumption|]); exact H6|lia|unfold at_proc; rewrite Z.eqb_refl; reflexivity].
Qed.
(** The process goes on as it was. *)
Lemma kept_job b o g k m no nl L F h s nw rd fs : Lines2_Proofs.inv fs (mkW (g_tab g) rd) -> procs_rel rd (o_next o) b (o_proc o) (g_srv g) -> tiers_rel rd (o_next o) (o_proc o) (g_tier g) ->
  o_proc o k = Some (JFlow h s) -> g_srv g k = Some (SFlow m no nl L F) -> h_mode h = m -> h_notargets h = no -> h_nolb h = nl -> h_lib h = L -> libc_ok L -> zlen (t_set s) <= 2 * b ->
  calm L s nw -> (forall n, flow_rel L rd (o_next o) s n (F n) (comp F n) (nw n)) ->
  rel (b + 1) (mkHost fs (o_next o + 1) (setProc (o_proc o) k (Some (JFlow h (now o s))))) g.
Proof.
  intros I P TP PK V H1 H2 H3 H4 H5 H6 CM FR. pose proof (calm_now L o s nw CM) as CMN. exists rd. split; [exact I|]. cbn [o_next o_proc].
  split; [|apply (tiers_keep _ _ _ _ _ (JFlow h s)); [apply (tiers_mono rd rd (o_next o)); auto; lia|exact PK|reflexivity]].
  assert (PM : procs_rel rd (o_next o + 1) (b + 1) (o_proc o) (g_srv g)) by (apply (procs_mono rd rd (o_next o) _ b); auto; lia).
  intros i. unfold setProc. destruct (i =? k) eqn:IK; [|apply PM]. apply Z.eqb_eq in IK. subst i. rewrite V. cbn [job_rel]. repeat (split; [assumption|]).
  split; [cbn [now set_env t_set]; lia|]. exists nw. split; [exact CMN|]. intros n'. specialize (FR n'). unfold flow_rel in *. destruct (F n') as [[c' r']|]; [|exact FR].
  destruct FR as (t' & a' & g' & A1 & A2 & A3 & A4 & A5 & A6). exists t', a', g'. rewrite there_now. repeat (split; [assumption|]). split; [lia|assumption].
Qed.
Lemma step_set_no b o g k its tail junk c m no nl L F n t : rel b o g -> 2 * b + 5 < 2147483648 ->
  Forall (item_ok flowSetOpts) its -> (forall i, ~ missing flowSetOpts its i) -> carried FlowSet its tail -> set_checked its -> told FlowSet its c ->
  g_srv g k = Some (SFlow m no nl L F) -> good_request L c n t -> same_udp F n c -> (forall r', ~ shared F t r') -> (forall x, object t x -> g_tab g x = None) ->
  exists o', odo o (OFlow k (str "flow-set" :: line its tail) junk) =
      Ok (o', Ended (-1) (str (match F n with None => "FAIL: Couldn't create load-balancer" | Some _ => "FAIL: Couldn't create new load-balancer" end) ++ [10])) /\
    rel (b + 1) o' g.
Proof.
  intros (rd & I & P & TP) B FI M CA CH T V GR SU NS NT. destruct (set_read its tail c FI M CA CH T) as (txt & S & R & AC & U0).
  destruct (srv_flow _ _ _ _ _ _ _ _ _ _ _ P V) as (h & s & PK & H1 & H2 & H3 & H4 & H5 & H6 & nw & CM & FR).
  pose proof GR as (GN & GT & _). pose proof (calm_now L o s nw CM) as CMN.
  cbn [odo]. rewrite streq_refl. unfold flowLine. rewrite S, PK, R. cbn [obind]. rewrite H4, (command_set L c AC).
  assert (BB : zlen (t_set (now o s)) + 4 < 2147483648) by (cbn [now set_env t_set]; lia).
  assert (SF : forall f, findName (t_set (now o s)) n = Some f -> f_udpencap f = c_udpencap c) by (apply (same_found L rd (o_next o) s F nw); auto; apply GR).
  pose proof (absent_shared L rd (o_next o) s F nw H5 CM FR t NS) as AB. destruct (mapped_none (o_fs o) (g_tab g) rd (o_next o) t I NT) as (OP & _).
  assert (SM : t_shm (now o s) t = None) by (cbn [now set_env t_shm]; rewrite OP; reflexivity).
  destruct (set_calm_none L c n t (now o s) nw (good_acceptable _ _ _ _ GR U0) CMN GT SF BB (absent_now o s t AB) SM) as (ev & RUN).
  rewrite RUN. set (ex := match findName (t_set (now o s)) n with None => false | Some _ => true end).
  assert (RT : replyText c (no_object ex) = Ok (str (no_object ex))) by (destruct ex; reflexivity). rewrite RT. cbn [obind]. rewrite no_end. cbn [obind fst snd].
  change (t_objs (now o s)) with (t_objs s). rewrite znth_out by lia. cbn [mapped obind].
  assert (EX : no_object ex = match F n with None => "FAIL: Couldn't create load-balancer"%string | Some _ => "FAIL: Couldn't create new load-balancer"%string end).
  { unfold ex. change (t_set (now o s)) with (t_set s). pose proof (flow_udp L rd (o_next o) s F nw H5 CM FR n ltac:(apply GR)) as X. destruct (findName (t_set s) n) as [f|].
    - destruct X as (c' & r' & -> & _). reflexivity.
    - rewrite X. reflexivity. }
  rewrite EX. eexists. split; [reflexivity|]. exact (kept_job _ _ _ _ _ _ _ _ _ _ _ _ _ _ I P TP PK V H1 H2 H3 H4 H5 H6 CM FR).
Qed.
Lemma alter_end junk : talkEnd junk (firstn 64 (written (str "FAIL: Alter udpencap not allowed"))) = Ok (str "FAIL: Alter udpencap not allowed" ++ [10], -1).
Proof. rewrite talk_short; try reflexivity; vm_compute; intuition discriminate. Qed.
Lemma step_set_udp b o g k its tail junk c m no nl L F n t c' r' : rel b o g -> 2 * b + 5 < 2147483648 ->
  Forall (item_ok flowSetOpts) its -> (forall i, ~ missing flowSetOpts its i) -> carried FlowSet its tail -> set_checked its -> told FlowSet its c ->
  g_srv g k = Some (SFlow m no nl L F) -> good_request L c n t -> F n = Some (c', r') -> c_udpencap c' <> c_udpencap c ->
  exists o', odo o (OFlow k (str "flow-set" :: line its tail) junk) = Ok (o', Ended (-1) (str "FAIL: Alter udpencap not allowed" ++ [10])) /\ rel (b + 1) o' g.
Proof.
  intros (rd & I & P & TP) B FI M CA CH T V GR FN NU. destruct (set_read its tail c FI M CA CH T) as (txt & S & R & AC & U0).
  destruct (srv_flow _ _ _ _ _ _ _ _ _ _ _ P V) as (h & s & PK & H1 & H2 & H3 & H4 & H5 & H6 & nw & CM & FR).
  pose proof (calm_now L o s nw CM) as CMN.
  cbn [odo]. rewrite streq_refl. unfold flowLine. rewrite S, PK, R. cbn [obind]. rewrite H4, (command_set L c AC).
  assert (BB : zlen (t_set (now o s)) + 4 < 2147483648) by (cbn [now set_env t_set]; lia).
  pose proof (flow_udp L rd (o_next o) s F nw H5 CM FR n ltac:(apply GR)) as X. destruct (findName (t_set s) n) as [f|] eqn:FF; [|congruence]. destruct X as (c2 & r2 & F2 & U2).
  destruct (set_alter L c n (now o s) nw f (good_acceptable _ _ _ _ GR U0) CMN FF) as (ev & RUN); [congruence|exact BB|].
  rewrite RUN. change (replyText c "FAIL: Alter udpencap not allowed") with (Ok (A := chars) (str "FAIL: Alter udpencap not allowed")). cbn [obind]. rewrite alter_end. cbn [obind fst snd].
  change (t_objs (now o s)) with (t_objs s). rewrite znth_out by lia. cbn [mapped obind]. eexists. split; [reflexivity|]. exact (kept_job _ _ _ _ _ _ _ _ _ _ _ _ _ _ I P TP PK V H1 H2 H3 H4 H5 H6 CM FR).
Qed.
Lemma step_delete b o g k its tail junk m no nl L F n : rel b o g -> 2 * b + 5 < 2147483648 ->
  Forall (item_ok nameOpts) its -> value_of nameOpts its "name" (Some n) -> carried FlowDelete its tail -> g_srv g k = Some (SFlow m no nl L F) -> not_companion F n ->
  exists o', odo o (OFlow k (str "flow-delete" :: line its tail) junk) = Ok (o', Ended 0 ok_text) /\
    rel (b + 1) o' (mkSite (g_tab g) (at_k (g_srv g) k (with_flows m no nl L (at_name F n None))) (g_tier g)).
Proof.
  intros (rd & I & P & TP) B FI NV CA V NC. destruct (delete_read its tail n FI NV CA) as (txt & c & S & R & AC & CN).
  destruct (srv_flow _ _ _ _ _ _ _ _ _ _ _ P V) as (h & s & PK & H1 & H2 & H3 & H4 & H5 & H6 & nw & CM & FR).
  pose proof (calm_now L o s nw CM) as CMN. cbn [odo]. change (streq (str "flow-delete") (str "flow-set")) with false. rewrite streq_refl. cbv iota.
  unfold flowLine. rewrite S, PK, R. cbn [obind]. rewrite (command_delete (h_lib h) c AC).
  assert (BB : zlen (t_set (now o s)) + 4 < 2147483648) by (cbn [now set_env t_set]; lia).
  assert (CN0 : comp F n = None). { destruct (comp F n) as [x|] eqn:E; [|reflexivity]. apply comp_some in E. destruct E as (q & c' & r' & -> & Q1 & Q2 & _). destruct (NC q c' r' Q1 Q2 eq_refl). }
  set (u := match findName (t_set (now o s)) n with None => 0 | Some f => f_udpencap f end).
  assert (UU : (forall c r, F n = Some (c, r) -> u = c_udpencap c) /\ (F n = None -> u = 0) /\ (own_name n \/ findName (t_set (now o s)) n = None)).
  { unfold u. change (t_set (now o s)) with (t_set s). destruct (F n) as [[c' r']|] eqn:FN.
    - pose proof (known_own L rd (o_next o) s F nw FR n c' r' FN) as ON. pose proof (flow_udp L rd (o_next o) s F nw H5 CM FR n ON) as X. destruct (findName (t_set s) n) as [f|]; [|congruence].
      destruct X as (c2 & r2 & F2 & ->). rewrite FN in F2. injection F2 as <- <-. split; [|split; [discriminate|auto]]. intros c0 r0 [= <- _]. reflexivity.
    - pose proof (FR n) as FRN. rewrite FN in FRN. cbn [flow_rel] in FRN. rewrite CN0 in FRN. rewrite (flow_not L s nw n H5 CM FRN). split; [discriminate|]. auto. }
  destruct UU as (UU1 & UU2 & UU3).
  destruct (delete_calm L c n (now o s) nw H5 CMN CN UU3 BB) as (s' & ev & RUN & CM' & K & ZO & ZS). fold u in CM'. rewrite RUN.
  change (replyText c "OK") with (Ok (A := chars) (str "OK")). cbn [obind]. rewrite ok_end. cbn [obind fst snd]. cbn [now set_env t_objs t_set] in ZO, ZS.
  rewrite znth_out by lia. cbn [mapped obind]. eexists. split; [reflexivity|]. exists rd. split; [exact I|]. cbn [o_next o_proc g_srv].
  split; [|apply (tiers_keep _ _ _ _ _ (JFlow h s)); [apply (tiers_mono rd rd (o_next o)); auto; lia|exact PK|reflexivity]].
  apply procs_set; [apply (procs_mono rd rd (o_next o) _ b); auto; lia|]. cbn [with_flows job_rel]. repeat (split; [assumption|]). split; [lia|].
  exists (upd_del nw n u). split; [exact CM'|].
  apply (flows_delete L rd (o_next o) (now o s) F nw H5); auto.
Qed.
Lemma no_server rd next b p v k : procs_rel rd next b p v -> (forall m no nl L F, v k <> Some (SFlow m no nl L F)) -> match p k with Some (JFlow _ _) => False | _ => True end.
Proof. intros P N. specialize (P k). destruct (p k) as [[c s|h s]|]; auto. destruct (v k) as [[m no en r|m no nl L F]|]; try contradiction. exact (N _ _ _ _ _ eq_refl). Qed.
Lemma step_set_none b o g k its tail junk c : rel b o g ->
  Forall (item_ok flowSetOpts) its -> (forall i, ~ missing flowSetOpts its i) -> carried FlowSet its tail -> set_checked its -> told FlowSet its c -> (forall m no nl L F, g_srv g k <> Some (SFlow m no nl L F)) ->
  odo o (OFlow k (str "flow-set" :: line its tail) junk) = Ok (o, NoServer).
Proof.
  intros (rd & I & P & TP) FI M CA CH T N. destruct (set_read its tail c FI M CA CH T) as (txt & S & _).
  cbn [odo]. rewrite streq_refl. unfold flowLine. rewrite S. pose proof (no_server _ _ _ _ _ _ P N) as X. destruct (o_proc o k) as [[? ?|? ?]|]; auto. destruct X.
Qed.
Lemma step_delete_none b o g k its tail junk n : rel b o g ->
  Forall (item_ok nameOpts) its -> value_of nameOpts its "name" (Some n) -> carried FlowDelete its tail -> (forall m no nl L F, g_srv g k <> Some (SFlow m no nl L F)) ->
  odo o (OFlow k (str "flow-delete" :: line its tail) junk) = Ok (o, NoServer).
Proof.
  intros (rd & I & P & TP) FI NV CA N. destruct (delete_read its tail n FI NV CA) as (txt & c & S & _).
  cbn [odo]. change (streq (str "flow-delete") (str "flow-set")) with false. rewrite streq_refl. cbv iota. unfold flowLine. rewrite S.
  pose proof (no_server _ _ _ _ _ _ P N) as X. destruct (o_proc o k) as [[? ?|? ?]|]; auto. destruct X.
Qed.
