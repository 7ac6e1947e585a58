(** Proofs for C82: who reaches whom. *)
From Coq Require Import String.
From Verif Require Import Base Lists Cstr_Model Rangeset_Spec Util_Proofs Start_Proofs Lines_Proofs Ctl_Proofs Ctl2_Proofs Opt_Model Opt_Spec Opt_Proofs Opt2_Proofs Addr_Model Addr_Spec Addr_Proofs.

(** ** A connect *)
Lemma connected N tr w c t c' t' k s : inv N tr w -> In (Reached c' t' k s) (connects N w c t) ->
  connects N w c t = [Reached c t k s] /\ c' = c /\ t' = t /\
  exists a a', parseAddress N t = Ok (Some a) /\ In (mkSock k s a' true) (a_socks w) /\ meets N a a' = true.
Proof.
  intros I H. unfold connects in *. destruct (parseAddress N t) as [[a|]| | |] eqn:P; try (destruct H as [H|[]]; discriminate).
  destruct (find _ _) as [x|] eqn:F; [|destruct H as [H|[]]; discriminate]. destruct H as [H|[]]. injection H as -> -> <- <-.
  split; [reflexivity|]. split; [reflexivity|]. split; [reflexivity|]. apply find_some in F. destruct F as (X & L). apply andb_true_iff in L. destruct L as (L & M).
  exists a, (k_addr x). split; [reflexivity|]. split; [|exact M]. destruct x as [a1 a2 a3 a4]. cbn [k_listens k_addr k_proc k_srv] in *. subst a4. exact X.
Qed.
Lemma sock_running N tr w k s a b : inv N tr w -> In (mkSock k s a b) (a_socks w) -> exists t, running tr k s = Some t /\ parseAddress N t = Ok (Some a).
Proof.
  intros I H. destruct (i_sock _ _ _ I _ H) as (f & F1 & F2). cbn [k_proc k_srv k_addr k_listens] in *. assert (T := i_thr _ _ _ I k f F1 s). rewrite F2 in T.
  destruct b; exact (proj1 T).
Qed.
(** All clients of a place come to the same socket. *)
Lemma find_this N tr w a x : net_ok N -> inv N tr w -> In x (a_socks w) -> k_listens x = true -> meets N a (k_addr x) = true ->
  find (fun x => k_listens x && meets N a (k_addr x)) (a_socks w) = Some x.
Proof.
  intros K I X L M. destruct (find _ _) as [y|] eqn:F.
  - apply find_some in F. destruct F as (Y & Q). apply andb_true_iff in Q. destruct Q as (_ & M').
    destruct (pairs_two _ _ _ _ _ (i_apart _ _ _ I) X Y) as [->|[C|C]]; [reflexivity| |].
    + rewrite (meets_clash N a _ _ K M M') in C. discriminate.
    + rewrite (meets_clash N a _ _ K M' M) in C. discriminate.
  - exfalso. assert (Q := find_none _ _ F x X). cbn in Q. rewrite L, M in Q. discriminate.
Qed.
Lemma connects_to N tr w c t a x : net_ok N -> inv N tr w -> parseAddress N t = Ok (Some a) -> In x (a_socks w) -> k_listens x = true -> meets N a (k_addr x) = true ->
  connects N w c t = [Reached c t (k_proc x) (k_srv x)].
Proof. intros K I P X L M. unfold connects. rewrite P, (find_this N tr w a x K I X L M). reflexivity. Qed.

Lemma client_step N w l c t : client_of l c t -> astep N w l = Some (w, connects N w c t).
Proof.
  destruct l; cbn [client_of]; try contradiction.
  - intros (-> & [->|(-> & ->)]); reflexivity.
  - intros (-> & its & tail & -> & F & V). cbn [astep]. destruct trace_table as (T & R).
    destruct (line_vals2 traceOpts its tail T F (none_missing _ _ R)) as (vals & P & L & X). unfold traceAddress. rewrite P, (X 3 _ "trace_address"%string _ eq_refl eq_refl V). reflexivity.
Qed.
Lemma reached_step N tr w l w' ob c t k s : inv N tr w -> astep N w l = Some (w', ob) -> In (Reached c t k s) ob ->
  w' = w /\ ob = connects N w c t.
Proof.
  intros I H J. destruct l; cbn [astep] in H.
  - unfold begins in H. destruct (a_thr w k0); [discriminate|]. destruct (traceAddress lbOpts 16 ws); [|discriminate]. injection H as <- <-. destruct J as [J|[]]; discriminate.
  - unfold begins in H. destruct (a_thr w k0); [discriminate|]. destruct (traceAddress flowlbOpts 16 ws); [|discriminate]. injection H as <- <-. destruct J as [J|[]]; discriminate.
  - exfalso. unfold threadStep in H. destruct (a_thr w k0); [|discriminate]. destruct (t0 s0); try discriminate.
    + destruct (parseAddress N t1) as [[a|]| | |]; try (injection H as <- <-; destruct J as [J|[]]; discriminate).
      destruct (tooLong a || _); injection H as <- <-; [destruct J as [J|[]]; discriminate|destruct J].
    + injection H as <- <-. destruct J.
  - exfalso. destruct (a_thr w k0) as [f|]; [|discriminate]. destruct (f s0); try discriminate. destruct (parseAddress N t0) as [[a|]| | |]; try discriminate.
    destruct (isUnix a); [discriminate|]. injection H as <- <-. destruct J as [J|[]]; discriminate.
  - injection H as <- <-. split; [reflexivity|]. destruct (connected N tr w c0 (flowAddress env) c t k s I J) as (_ & -> & -> & _). reflexivity.
  - destruct (traceAddress traceOpts 3 ws) as [u|]; [|discriminate]. injection H as <- <-. split; [reflexivity|]. destruct (connected N tr w c0 u c t k s I J) as (_ & -> & -> & _). reflexivity.
  - exfalso. destruct (a_thr w k0); [|discriminate]. injection H as <- <-. destruct J as [J|[]]; discriminate.
Qed.

(** ** A client comes to a process that runs and was started with the same place *)
Lemma reach_ok N ok tr w : net_ok N -> aexec N ok tr w -> forall t1 c t k s t2, tr = t1 ++ Reached c t k s :: t2 ->
  exists t', running t1 k s = Some t' /\ same_place N t t'.
Proof.
  intros K E. induction E as [|tr w l w' ob E IH O H]; intros t1 c t k s t2 Q; [destruct t1; discriminate|].
  destruct (split_tail _ _ _ _ _ _ Q) as [(u & -> & ->)|(u & -> & Q')]; [eapply IH; reflexivity|].
  assert (I := inv_exec _ _ _ _ E). assert (J : In (Reached c t k s) ob) by (rewrite Q'; apply in_or_app; right; left; reflexivity).
  destruct (reached_step _ _ _ _ _ _ _ _ _ _ I H J) as (-> & B). rewrite B in J. destruct (connected _ _ _ _ _ _ _ _ _ I J) as (C & _ & _ & a & a' & P & S & M).
  assert (u = []). { rewrite B, C in Q'. destruct u as [|x [|y r]]; [reflexivity|discriminate|discriminate]. }
  subst u. rewrite app_nil_r. destruct (sock_running _ _ _ _ _ _ _ I S) as (t' & R & P'). exists t'. split; [exact R|]. exact (meets_place _ _ _ _ _ K P P' M).
Qed.

(** ** As long as it runs, all others do, too *)
Lemma sock_stays N w l w' ob k s a : astep N w l = Some (w', ob) -> In (mkSock k s a true) (a_socks w) -> (forall e, In e ob -> ~ ends_of k e) ->
  (forall tr, inv N tr w -> In (mkSock k s a true) (a_socks w')).
Proof.
  intros H S Q tr I.
  assert (G : forall i, k <> i -> In (mkSock k s a true) (a_socks (gone w i))).
  { intros i D. cbn [gone a_socks]. apply filter_In. split; [exact S|]. cbn [k_proc]. destruct (Z.eqb_spec k i); [contradiction|reflexivity]. }
  destruct l; cbn [astep] in H.
  - unfold begins in H. destruct (a_thr w k0); [discriminate|]. destruct (traceAddress lbOpts 16 ws); [|discriminate]. injection H as <- <-. exact S.
  - unfold begins in H. destruct (a_thr w k0); [discriminate|]. destruct (traceAddress flowlbOpts 16 ws); [|discriminate]. injection H as <- <-. exact S.
  - unfold threadStep in H. destruct (a_thr w k0) as [f|] eqn:E; [|discriminate]. destruct (f s0) as [|u|b|b] eqn:F; try discriminate.
    + destruct (parseAddress N u) as [[b|]| | |]; try (injection H as <- <-; apply G; intros ->; apply (Q _ (or_introl eq_refl)); unfold ends_of; tauto).
      destruct (tooLong b || _); injection H as <- <-; [apply G; intros ->; apply (Q _ (or_introl eq_refl)); unfold ends_of; tauto|right; exact S].
    + injection H as <- <-. cbn [a_socks]. apply in_map_iff. exists (mkSock k s a true). split; [|exact S]. cbn [k_proc k_srv].
      destruct (Z.eqb_spec k k0) as [->|D]; cbn [andb]; [|reflexivity]. destruct (srvEq s s0) eqn:Y; [|reflexivity]. apply srvEq_eq in Y. subst s0.
      destruct (i_sock _ _ _ I _ S) as (g & G1 & G2). cbn [k_proc k_srv k_listens k_addr] in *. rewrite E in G1. injection G1 as <-. rewrite F in G2. discriminate.
  - destruct (a_thr w k0) as [f|]; [|discriminate]. destruct (f s0) as [|u|b|b]; try discriminate. destruct (parseAddress N u) as [[b|]| | |]; try discriminate.
    destruct (isUnix b); [discriminate|]. injection H as <- <-. apply G. intros ->. apply (Q _ (or_introl eq_refl)). unfold ends_of. tauto.
  - injection H as <- <-. exact S.
  - destruct (traceAddress traceOpts 3 ws); [|discriminate]. injection H as <- <-. exact S.
  - destruct (a_thr w k0); [|discriminate]. injection H as <- <-. apply G. intros ->. apply (Q _ (or_introl eq_refl)). unfold ends_of. tauto.
Qed.
Lemma kept N ok tr w : aexec N ok tr w -> forall t1 c t k s t2, tr = t1 ++ Reached c t k s :: t2 -> (forall e, In e t2 -> ~ ends_of k e) ->
  exists a a', parseAddress N t = Ok (Some a) /\ In (mkSock k s a' true) (a_socks w) /\ meets N a a' = true.
Proof.
  intros E. induction E as [|tr w l w' ob E IH O H]; intros t1 c t k s t2 Q D; [destruct t1; discriminate|]. assert (I := inv_exec _ _ _ _ E).
  destruct (split_tail _ _ _ _ _ _ Q) as [(u & -> & ->)|(u & -> & Q')].
  - destruct (IH _ _ _ _ _ _ eq_refl (fun e X => D e (in_or_app _ _ _ (or_introl X)))) as (a & a' & P & S & M). exists a, a'. split; [exact P|]. split; [|exact M].
    eapply sock_stays; [exact H|exact S|intros e X; apply D, in_or_app; right; exact X|exact I].
  - assert (J : In (Reached c t k s) ob) by (rewrite Q'; apply in_or_app; right; left; reflexivity).
    destruct (reached_step _ _ _ _ _ _ _ _ _ _ I H J) as (-> & B). rewrite B in J. destruct (connected _ _ _ _ _ _ _ _ _ I J) as (_ & _ & _ & X). exact X.
Qed.
Lemma reach_same N ok tr w : net_ok N -> aexec N ok tr w -> forall t1 c t k s t2 c' k' s' t3,
  tr = t1 ++ Reached c t k s :: t2 ++ Reached c' t k' s' :: t3 -> (forall e, In e t2 -> ~ ends_of k e) -> k' = k /\ s' = s.
Proof.
  intros K E. induction E as [|tr w l w' ob E IH O H]; intros t1 c t k s t2 c' k' s' t3 Q D; [destruct t1; discriminate|].
  rewrite app_comm_cons, app_assoc in Q. assert (I := inv_exec _ _ _ _ E).
  destruct (split_tail _ _ _ _ _ _ Q) as [(u & Q1 & ->)|(u & Q1 & Q')]; [eapply IH; [rewrite Q1, <- app_assoc; reflexivity|exact D]|].
  assert (J : In (Reached c' t k' s') ob) by (rewrite Q'; apply in_or_app; right; left; reflexivity).
  destruct (reached_step _ _ _ _ _ _ _ _ _ _ I H J) as (-> & B). rewrite B in J. destruct (connected _ _ _ _ _ _ _ _ _ I J) as (C & _).
  assert (u = []). { rewrite B, C in Q'. destruct u as [|x [|y r]]; [reflexivity|discriminate|discriminate]. }
  subst u. rewrite app_nil_r in Q1. subst tr. destruct (kept _ _ _ _ E _ _ _ _ _ _ eq_refl D) as (a & a' & P & S & M).
  rewrite (connects_to N _ w c' t a _ K I P S eq_refl M) in C. cbn [k_proc k_srv] in C. injection C as <- <-. split; reflexivity.
Qed.

(** ** With addresses apart nobody dies *)
Lemma apart_prefix N tr ob : apart N (tr ++ ob) -> apart N tr.
Proof. intros A t1 t2 ->. apply (A t1 (t2 ++ ob)). symmetry. apply app_assoc. Qed.
Lemma bind_ok N tr w k s f t : net_ok N -> inv N tr w -> apart N tr -> a_thr w k = Some f -> f s = Begins t ->
  exists a, addr_of N t a /\ parseAddress N t = Ok (Some a) /\ tooLong a || existsb (fun x => clash N a (k_addr x)) (a_socks w) = false.
Proof.
  intros K I A E F. assert (R := i_thr _ _ _ I k f E s). rewrite F in R. cbn [thr_ok] in R. destruct (A tr [] (eq_sym (app_nil_r tr))) as (A1 & A2).
  destruct (A1 k s t R) as (a & Ha). destruct (addr_parse N t a K Ha) as (P & L). exists a. split; [exact Ha|]. split; [exact P|]. rewrite L. cbn [orb].
  destruct (existsb _ _) eqn:X; [|reflexivity]. exfalso. apply existsb_exists in X. destruct X as ([k' s' a' b] & X & C). cbn [k_addr] in C.
  destruct (sock_running _ _ _ _ _ _ _ I X) as (t' & R' & P'). destruct (A1 k' s' t' R') as (a'' & Ha'). destruct (addr_parse N t' a'' K Ha') as (P'' & _).
  assert (a'' = a') by congruence. subst a''. rewrite (A2 k s t a k' s' t' a' R Ha R' Ha') in C; [discriminate|].
  intro Q. injection Q as <- <-. destruct (i_sock _ _ _ I _ X) as (g & G1 & G2). cbn [k_proc k_srv k_listens k_addr] in *. rewrite E in G1. injection G1 as <-. rewrite F in G2. destruct b; discriminate.
Qed.
Lemma nobody_dies N tr w : net_ok N -> aexec N bind_works tr w -> apart N tr -> forall k, ~ In (Died k) tr /\ ~ In (Crashed k) tr.
Proof.
  intros K E. induction E as [|tr w l w' ob E IH O H]; intros A k; [split; intros []|]. destruct (IH (apart_prefix _ _ _ A) k) as (N1 & N2). assert (I := inv_exec _ _ _ _ E).
  assert (Q : ~ In (Died k) ob /\ ~ In (Crashed k) ob).
  { destruct l; cbn [astep bind_works] in *.
    - unfold begins in H. destruct (a_thr w k0); [discriminate|]. destruct (traceAddress lbOpts 16 ws); [|discriminate]. injection H as <- <-. split; intros [X|[]]; discriminate.
    - unfold begins in H. destruct (a_thr w k0); [discriminate|]. destruct (traceAddress flowlbOpts 16 ws); [|discriminate]. injection H as <- <-. split; intros [X|[]]; discriminate.
    - unfold threadStep in H. destruct (a_thr w k0) as [f|] eqn:EF; [|discriminate]. destruct (f s) as [|t|b|b] eqn:F; try discriminate.
      + destruct (bind_ok N tr w k0 s f t K I (apart_prefix _ _ _ A) EF F) as (a & _ & P & B). rewrite P, B in H. injection H as <- <-. split; intros [].
      + injection H as <- <-. split; intros [].
    - contradiction.
    - injection H as <- <-. unfold connects. destruct (parseAddress N (flowAddress env)) as [[a|]| | |]; [destruct (find _ _)| | | |]; split; intros [X|[]]; discriminate.
    - destruct (traceAddress traceOpts 3 ws) as [t|]; [|discriminate]. injection H as <- <-. unfold connects. destruct (parseAddress N t) as [[a|]| | |]; [destruct (find _ _)| | | |]; split; intros [X|[]]; discriminate.
    - destruct (a_thr w k0); [|discriminate]. injection H as <- <-. split; intros [X|[]]; discriminate. }
  split; intro X; apply in_app_or in X; destruct X; tauto.
Qed.

(** ** ... and every server can be reached *)
Lemma to_serve N tr w k s t : net_ok N -> inv N tr w -> apart N tr -> running tr k s = Some t ->
  exists i w' a, arun N w (repeat (LThread k s) i) = Some (w', []) /\ parseAddress N t = Ok (Some a) /\ In (mkSock k s a true) (a_socks w') /\ inv N tr w'.
Proof.
  intros K I A R. destruct (a_thr w k) as [f|] eqn:E; [|rewrite (i_none _ _ _ I k E s) in R; discriminate].
  assert (T := i_thr _ _ _ I k f E s).
  assert (L : forall w f a, inv N tr w -> a_thr w k = Some f -> f s = Bound a -> exists w', arun N w [LThread k s] = Some (w', []) /\ parseAddress N t = Ok (Some a) /\ In (mkSock k s a true) (a_socks w') /\ inv N tr w').
  { clear w f I E T. intros w f a I E F. assert (T := i_thr _ _ _ I k f E s). rewrite F in T. destruct T as ((t' & R' & P) & S). assert (t' = t) by congruence. subst t'.
    assert (H : threadStep N w k s = Some (mkA (setThr (a_thr w) k (Some (setSrv f s (Serves a)))) (map (fun x => if (k_proc x =? k) && srvEq (k_srv x) s then mkSock k s a true else x) (a_socks w)), [])).
    { unfold threadStep. rewrite E, F. reflexivity. }
    cbn [arun astep]. rewrite H. eexists. split; [reflexivity|]. split; [exact P|]. split.
    - cbn [a_socks]. apply in_map_iff. exists (mkSock k s a false). split; [|exact S]. cbn [k_proc k_srv]. rewrite Z.eqb_refl, srvEq_refl. reflexivity.
    - apply (inv_thread _ _ _ _ _ _ _ I) in H. rewrite app_nil_r in H. exact H. }
  destruct (f s) as [|u|a|a] eqn:F; cbn [thr_ok] in T.
  - congruence.
  - assert (u = t) by congruence. subst u. destruct (bind_ok N tr w k s f t K I A E F) as (a & _ & P & B).
    assert (H : threadStep N w k s = Some (mkA (setThr (a_thr w) k (Some (setSrv f s (Bound a)))) (mkSock k s a false :: a_socks w), [])).
    { unfold threadStep. rewrite E, F, P, B. reflexivity. }
    assert (I2 := inv_thread _ _ _ _ _ _ _ I H). rewrite app_nil_r in I2.
    destruct (L _ (setSrv f s (Bound a)) a I2 (setThr_same _ _ _) (setSrv_same _ _ _)) as (w' & Q & P' & S & I3).
    exists 2%nat, w', a. split; [|auto]. change (repeat (LThread k s) 2) with [LThread k s; LThread k s]. cbn [arun astep] in *. rewrite H. rewrite Q. reflexivity.
  - destruct (L w f a I E F) as (w' & Q & X). exists 1%nat, w', a. split; [exact Q|exact X].
  - destruct T as ((t' & R' & P) & S). assert (t' = t) by congruence. subst t'. exists 0%nat, w, a. split; [reflexivity|auto].
Qed.
Lemma arun_app N w a b w1 o1 w2 o2 : arun N w a = Some (w1, o1) -> arun N w1 b = Some (w2, o2) -> arun N w (a ++ b) = Some (w2, o1 ++ o2).
Proof.
  revert w o1. induction a as [|l a IH]; intros w o1 H1 H2; cbn [arun app] in *.
  - injection H1 as <- <-. exact H2.
  - destruct (astep N w l) as [[w' ob]|]; [|discriminate]. destruct (arun N w' a) as [[w'' obs]|] eqn:E; [|discriminate]. injection H1 as <- <-.
    rewrite (IH _ _ E H2). rewrite app_assoc. reflexivity.
Qed.
Lemma reachable N tr w k s t l c : net_ok N -> aexec N bind_works tr w -> apart N tr -> running tr k s = Some t -> client_of l c t ->
  exists i w', arun N w (repeat (LThread k s) i ++ [l]) = Some (w', [Reached c t k s]).
Proof.
  intros K E A R C. destruct (to_serve N tr w k s t K (inv_exec _ _ _ _ E) A R) as (i & w' & a & Q & P & S & I).
  exists i, w'. change [Reached c t k s] with ([] ++ [Reached c t k s]). eapply arun_app; [exact Q|]. cbn [arun]. rewrite (client_step N w' l c t C).
  rewrite (connects_to N tr w' c t a _ K I P S eq_refl (meets_refl N a K)). reflexivity.
Qed.

(** ** Lines *)
Lemma start_step N w l k s t : a_thr w k = None -> starts l k s t ->
  exists w' tr fl f, astep N w l = Some (w', [Began k tr fl]) /\ match s with TraceServer => tr = t | FlowServer => fl = Some t end /\
    a_thr w' k = Some f /\ f s = Begins t /\ a_socks w' = a_socks w.
Proof.
  intro Z. destruct l; cbn [starts]; try contradiction.
  - intros (-> & -> & its & tail & -> & F & V). cbn [astep]. destruct lb_table as (T & R). destruct (Start_Proofs.line_vals lbOpts its tail T F R) as (vals & P & L & X).
    unfold traceAddress. rewrite P, (X 16 _ "trace_address"%string _ eq_refl eq_refl V). unfold begins. rewrite Z.
    do 4 eexists. split; [reflexivity|]. split; [reflexivity|]. cbn [a_thr a_socks]. rewrite setThr_same. split; [reflexivity|]. split; reflexivity.
  - intros (-> & its & tail & -> & F & V). cbn [astep]. destruct flowlb_table as (T & R).
    destruct (Start_Proofs.line_vals flowlbOpts its tail T F R) as (vals & P & L & X). unfold traceAddress. rewrite P.
    assert (exists u, znth vals 16 = Some (Some u) /\ match s with TraceServer => u = t | FlowServer => True end) as (u & U & U').
    { destruct s.
      - exists t. split; [apply (X 16 _ "trace_address"%string _ eq_refl eq_refl V)|reflexivity].
      - destruct (line_read flowlbOpts its tail T F (none_missing _ _ R)) as (vals' & P' & L' & V'). rewrite P in P'. injection P' as <-.
        destruct (znth_in_range _ vals 16) as (v & Q); [rewrite L; vm_compute; split; congruence|].
        specialize (V' 16 v Q).
        assert (exists u, v = Some u) as (u & ->); [|exists u; auto].
        destruct V' as [(pre & it & post & Ei & G & _)|(_ & o & O & ->)]; [|cbn in O; injection O as <-; eexists; reflexivity].
        rewrite Ei in F. apply Forall_app in F. destruct F as (_ & F). apply Forall_inv in F. destruct it; cbn [gives item_ok] in *.
        + destruct G as (_ & ->). eexists. reflexivity.
        + destruct G as (_ & ->). eexists. reflexivity.
        + destruct G as (D & ->). destruct F as (_ & j & o & D' & Zo & Fl & _). assert (j = 16) by exact (denotes_fun _ _ _ _ T D' D). subst j. cbn in Zo. injection Zo as <-. exfalso. destruct Fl as [Fl|Fl]; discriminate.
        + contradiction. }
    rewrite U. unfold begins. rewrite Z.
    do 4 eexists. split; [reflexivity|]. split; [destruct s; [exact U'|]; destruct V as [->|(-> & ->)]; reflexivity|]. cbn [a_thr a_socks]. rewrite setThr_same. split; [reflexivity|].
    split; [|reflexivity]. destruct s; [congruence|]. destruct V as [->|(-> & ->)]; reflexivity.
Qed.

(** ** Refutations *)
Lemma second_dies N ok tr w c t k s l k2 s2 : net_ok N -> aexec N ok (tr ++ [Reached c t k s]) w -> a_thr w k2 = None -> starts l k2 s2 t ->
  exists w' u fl, arun N w [l; LThread k2 s2] = Some (w', [Began k2 u fl; Died k2]).
Proof.
  intros K E Z S. destruct (kept _ _ _ _ E _ _ _ _ _ _ eq_refl) as (a & a' & P & X & M); [intros e []|].
  destruct (start_step N w l k2 s2 t Z S) as (w' & u & fl & f & H & _ & F & B & Q). cbn [arun]. rewrite H. cbn [astep]. unfold threadStep. rewrite F, B, P, Q.
  replace (existsb (fun x => clash N a (k_addr x)) (a_socks w)) with true; [rewrite orb_true_r; do 3 eexists; reflexivity|].
  symmetry. apply existsb_exists. eexists. split; [exact X|]. cbn [k_addr]. exact (meets_clash N a a a' K (meets_refl N a K) M).
Qed.
Lemma long_name N w l k s n : a_thr w k = None -> starts l k s (str "unix:" ++ n) -> 108 <= zlen n ->
  exists w' u fl, arun N w [l; LThread k s] = Some (w', [Began k u fl; if zlen n <=? 124 then Died k else Crashed k]).
Proof.
  intros Z S L. destruct (start_step N w l k s _ Z S) as (w' & u & fl & f & H & _ & F & B & Q). cbn [arun]. rewrite H. cbn [astep]. unfold threadStep. rewrite F, B, unix_parse.
  destruct (Z.leb_spec (zlen n) 124).
  - replace (128 <? 3 + zlen n + 1) with false by lia.
    replace (tooLong ([1; 0; 0] ++ n)) with true; [cbn [orb]; do 3 eexists; reflexivity|]. unfold tooLong. cbn [isUnix app andb]. symmetry. apply Z.ltb_lt. unfold zlen in *. cbn [length]. lia.
  - replace (128 <? 3 + zlen n + 1) with true by lia. do 3 eexists; reflexivity.
Qed.
