(** The flows in force are those requested (C63). *)
From Coq Require Import String.
From Verif Require Import Base Lists Cstr_Model Util_Spec Util_Proofs Rangeset_Spec Rangeset2_Proofs IpKey_Model Flow_Model Flow_Spec Flow2_Proofs Remote_Model FlowLb_Model FlowLb_Spec FlowLb_Proofs FlowLb4_Proofs Lb2_Proofs Requests_Spec.

(** ** Objects are for one target *)
Lemma znth_end {A} (l : list A) x : znth (l ++ [x]) (zlen l) = Some x.
Proof.
  unfold znth, zlen. destruct (Z.ltb_spec (Z.of_nat (length l)) 0); [lia|]. rewrite Nat2Z.id, nth_error_app2, Nat.sub_diag by lia. reflexivity.
Qed.
Definition ext (s s' : state) : Prop := forall a t, made_for s a t -> made_for s' a t.
Lemma ext_refl s : ext s s.
Proof. intros a t H. exact H. Qed.
Lemma ext_objs s s' : t_objs s' = t_objs s -> ext s s'.
Proof. intros E a t (o & H). exists o. rewrite E. exact H. Qed.
Lemma ext_put s a o x : deref s a = Some o -> lb_target x = lb_target o -> ext s (put s a x).
Proof.
  intros D T b t (y & Y & YT). unfold deref in D. destruct (znth (t_objs s) (a - 1)) as [o'|] eqn:E; [|discriminate].
  destruct (lb_freed o'); [discriminate|]. injection D as ->. unfold made_for. cbn [put set_objs t_objs].
  destruct (Z.eq_dec b a) as [->|N].
  - exists x. split; [|congruence]. apply znth_some_range in E. rewrite znth_zupd_eq; auto.
  - exists y. split; auto. rewrite znth_zupd_neq; [auto|lia].
Qed.
Lemma ext_lock s a s' : lockRef s a = Some s' -> ext s s' /\ t_set s' = t_set s.
Proof.
  unfold lockRef. destruct (deref s a) as [o|] eqn:D; [|discriminate]. intros H. injection H as <-.
  split; [|reflexivity]. eapply ext_put; eauto.
Qed.
Lemma ext_new s o l : ext s (set_list (set_objs s (t_objs s ++ [o])) l).
Proof. intros b t (y & Y & YT). exists y. split; auto. cbn [set_list set_objs t_objs]. apply znth_app_l; auto. Qed.
Lemma made_deref s a o : deref s a = Some o -> made_for s a (lb_target o).
Proof.
  unfold deref. destruct (znth (t_objs s) (a - 1)) as [o'|] eqn:E; [|discriminate]. destruct (lb_freed o'); [discriminate|].
  intros H. injection H as ->. exists o. auto.
Qed.
Lemma search_made s t : forall l a, search s l t = At a -> made_for s a t.
Proof.
  induction l as [|x l IH]; intros a H; cbn [search] in H; [discriminate|]. destruct (deref s x) as [o|] eqn:D; [|discriminate].
  destruct (streq (lb_target o) t) eqn:E; [|auto]. apply streq_eq in E. injection H as <-. rewrite <- E. apply made_deref; auto.
Qed.

(** ** Packets do not change the flows *)
Fixpoint stays (p : prog) : Prop :=
  match p with
  | Ret _ => True
  | Act _ f => forall s, staysr s (f s)
  end
with staysr (s : state) (r : result) : Prop :=
  match r with
  | Next _ s' p => (ext s s' /\ t_set s' = t_set s) /\ stays p
  | _ => True
  end.
Lemma stays_act l f : (forall s, staysr s (f s)) -> stays (Act l f).
Proof. auto. Qed.
Lemma stays_stop : stays stop.
Proof. cbn. auto. Qed.
Ltac same := split; [split; [first [apply ext_refl|apply ext_objs; reflexivity]|reflexivity]|].
Lemma stays_release l a k : stays k -> stays (release l a k).
Proof.
  intros K. unfold release. destruct (a =? 0); auto. apply stays_act. intros s. destruct (deref s a) as [o|] eqn:D; [|exact I].
  destruct (_ <? 0); [exact I|]. destruct (_ =? 0); (split; [split; [eapply ext_put; eauto|reflexivity]|]); [|auto].
  apply stays_act. clear s o D. intros s. destruct (deref s a) as [o|] eqn:D; [|exact I]. destruct (unlink _ _ _) as [l'|]; [|exact I]. same.
  apply stays_act. clear s o l' D. intros s. destruct (deref s a) as [o|] eqn:D; [|exact I]. split; [split; [eapply ext_put; eauto|reflexivity]|auto].
Qed.
Lemma stays_read reg hash k : (forall x, stays (k x)) -> stays (readTable reg hash k).
Proof.
  intros K. apply stays_act. intros s. destruct (reg s) as [r|]; [|exact I]. destruct (_ =? 0); [exact I|].
  destruct (aget _ _) as [i| | |]; try exact I. destruct (i <? 0); same; auto. apply stays_act. clear s r. intros s.
  destruct (reg s) as [r|]; [|exact I]. destruct (aget _ _); try exact I. same. auto.
Qed.
Lemma stays_first h now done k fi fw : stays (firstFragment h now done k fi fw).
Proof.
  unfold firstFragment. destruct fi as [id|]; [|apply stays_stop]. apply stays_act. intros s.
  destruct (Frag_Model.call_op _ _ _ _) as [[ft ob]| | |]; try exact I. destruct (retOf ob) as [[rc v]|]; [|exact I]. same. exact I.
Qed.
Lemma stays_forward h now done rc k fi a : stays (forward h now done rc k fi a).
Proof.
  unfold forward. destruct (a =? 0); [exact I|]. apply stays_read. intros fw. apply stays_release.
  assert (X : stays (if fw <? 0 then Ret (Verdict (h_notargets h)) else if Z.land rc 1 =? 0 then Ret (Verdict fw) else firstFragment h now done k fi fw)).
  { destruct (fw <? 0); [exact I|]. destruct (_ =? 0); [exact I|apply stays_first]. }
  unfold traceTarget. destruct (h_trace h); auto. apply stays_act. intros s. destruct (deref s a); [|exact I]. same. auto.
Qed.
Lemma stays_lookup h k eth data u kont : (forall a u', stays (kont a u')) -> stays (lookup h k eth data u kont).
Proof.
  intros K. apply stays_act. intros s. destruct (flowLookup _ _ _ _ _ _) as [[a u']| | |]; try exact I. destruct (a =? 0); [same; auto|].
  destruct (lockRef s a) as [s'|] eqn:E; [|exact I]. split; [apply (ext_lock _ _ _ E)|auto].
Qed.
Lemma stays_classify h now done eth data rc k fi : stays (classify h now done eth data rc k fi).
Proof.
  apply stays_lookup. intros a u. destruct (_ && _); [|apply stays_forward]. destruct (getHashKey _ _ _ _) as [[[[rc' k'] fi']|]| | |]; try exact I; try exact stays_stop.
  apply stays_lookup. intros. apply stays_forward.
Qed.
Lemma stays_packet h now done eth data : stays (packet h now done eth data).
Proof.
  unfold packet. destruct (getHashKey _ _ _ _) as [[[[rc k] fi]|]| | |]; try exact I; try exact stays_stop.
  destruct (_ =? 0); [apply stays_classify|]. assert (X : stays (if Z.land rc 1 =? 0 then otherFragment h now done k data else classify h now done eth data rc k fi)).
  { destruct (_ =? 0); [|apply stays_classify]. apply stays_act. intros s. destruct (Frag_Model.call_op _ _ _ _) as [[ft ob]| | |]; try exact I.
    destruct (retOf ob) as [[rc' v]|]; [|exact I]. destruct rc'; [destruct v; [|exact I]|..]; same; exact I. }
  unfold tier. destruct (h_tier h) as [[r own]|]; auto. apply stays_read. intros fw. destruct (_ && _); [exact I|auto].
Qed.

(** ** What a command does to the flows it found: [ops], answered [ans] *)
Definition stable (K : state -> Prop) : Prop := forall s s', ext s s' -> K s -> K s'.
Section Track.
Variables (L : libc) (f0 : list frec) (Fin : list op -> list Flow_Spec.answer -> state -> string -> Prop).
Fixpoint tok (K : state -> Prop) (ops : list op) (ans : list Flow_Spec.answer) (p : prog) {struct p} : Prop :=
  match p with
  | Ret (Reply m) => forall s, K s -> Fin ops ans s m
  | Ret (Verdict _) => False
  | Act _ f => forall s, K s -> run L f0 ops = Ok (t_set s, ans) -> tokr s (f s)
  end
with tokr (s : state) (r : result) {struct r} : Prop :=
  match r with
  | Next _ s' p => ext s s' /\ exists K' ops' ans', stable K' /\ K' s' /\ run L f0 ops' = Ok (t_set s', ans') /\ tok K' ops' ans' p
  | _ => True
  end.
Lemma tok_act (K : state -> Prop) ops ans l f : (forall s, K s -> run L f0 ops = Ok (t_set s, ans) -> tokr s (f s)) -> tok K ops ans (Act l f).
Proof. auto. Qed.
Lemma tok_stop K ops ans : tok K ops ans stop.
Proof. cbn. auto. Qed.
Lemma tok_same (K : state -> Prop) ops ans ev s s' p : stable K -> ext s s' -> t_set s' = t_set s -> K s -> run L f0 ops = Ok (t_set s, ans) -> tok K ops ans p -> tokr s (Next ev s' p).
Proof. intros S E T KS R P. cbn [tokr]. split; auto. exists K, ops, ans. rewrite T. split; auto. split; [eapply S; eauto|]. auto. Qed.
Lemma tok_weak p : forall (K K' : state -> Prop) ops ans, (forall s, K' s -> K s) -> tok K ops ans p -> tok K' ops ans p.
Proof. destruct p as [[v|m]|l f]; intros K K' ops ans H; cbn [tok]; auto. Qed.
Lemma tok_release K ops ans l a k : stable K -> tok K ops ans k -> tok K ops ans (release l a k).
Proof.
  intros S H. unfold release. destruct (a =? 0); auto. apply tok_act. intros s KS R. destruct (deref s a) as [o|] eqn:D; [|exact I].
  destruct (_ <? 0); [exact I|]. destruct (_ =? 0); [|apply (tok_same K ops ans); auto; eapply ext_put; eauto]. apply (tok_same K ops ans); auto; [eapply ext_put; eauto|].
  apply tok_act. clear s o D KS R. intros s KS R. destruct (deref s a) as [o|] eqn:D; [|exact I]. destruct (unlink _ _ _) as [l'|]; [|exact I].
  apply (tok_same K ops ans); auto; [apply ext_objs; reflexivity|].
  apply tok_act. clear s o l' D KS R. intros s KS R. destruct (deref s a) as [o|] eqn:D; [|exact I]. apply (tok_same K ops ans); auto. eapply ext_put; eauto.
Qed.
Lemma stable_and (K1 K2 : state -> Prop) : stable K1 -> stable K2 -> stable (fun s => K1 s /\ K2 s).
Proof. intros A B s s' E (X & Y). split; [eapply A|eapply B]; eauto. Qed.
Lemma stable_made a t : stable (fun s => made_for s a t).
Proof. intros s s' E H. auto. Qed.
Lemma stable_imp (Q : Prop) (K : state -> Prop) : stable K -> stable (fun s => Q -> K s).
Proof. intros A s s' E X Y. eapply A; eauto. Qed.
Lemma tok_find K ops ans t k : stable K -> (forall a, tok (fun s => K s /\ (a <> 0 -> made_for s a t)) ops ans (k a)) ->
  tok K ops ans (findOrCreate (Some t) k).
Proof.
  intros S H. apply tok_act. intros s KS R.
  assert (G : forall ev s' a, ext s s' -> t_set s' = t_set s -> (a <> 0 -> made_for s' a t) -> tokr s (Next ev s' (k a))).
  { intros ev s' a E T M. cbn [tokr]. split; auto. exists (fun s => K s /\ (a <> 0 -> made_for s a t)), ops, ans. rewrite T.
    split; [apply stable_and; auto; apply stable_imp, stable_made|]. split; [split; auto; eapply S; eauto|]. split; auto. }
  destruct (search s (t_list s) t) as [| |a] eqn:F; [exact I| |].
  - destruct (t_shm s t) as [r|]; [|apply G; auto using ext_refl; lia]. apply G; [apply ext_new|reflexivity|].
    intros _. exists (mkLb t 1 r false). cbn [set_list set_objs t_objs]. split; auto. replace (zlen (t_objs s) + 1 - 1) with (zlen (t_objs s)) by lia. rewrite znth_end. reflexivity.
  - destruct (lockRef s a) as [s'|] eqn:E; [|exact I]. destruct (ext_lock _ _ _ E) as (X & T). apply G; auto. intros _. apply X. eapply search_made; eauto.
Qed.
End Track.

(** ** Answers *)
Lemma errors_differ L a e : makeFlow L a = Ok (inl e) -> e <> "OK"%string.
Proof.
  unfold makeFlow. destruct (_ <=? _); [intros H; injection H as <-; discriminate|].
  assert (G : forall A B (s : string) (o : option A) (f : A -> outcome (option B)) x, ifgiven s o f = Ok (inl x) -> x = s).
  { intros A B s o f x. unfold ifgiven. destruct o as [v|]; [|discriminate]. destruct (f v) as [[y|]| | |]; cbn [obind]; congruence. }
  repeat match goal with |- (do p <- ?x; _) = _ -> _ =>
    let E := fresh "E" in destruct x as [[?|?]| | |] eqn:E; cbn [obind]; try discriminate; [apply G in E; intros H; injection H as <-; subst; discriminate|]; clear E end.
  destruct (ifgiven "Match" _ _) as [[?|?]| | |] eqn:E; cbn [obind]; try discriminate. apply G in E; intros H; injection H as <-; subst; discriminate.
Qed.
Lemma define_answer L set a e set' : flowDefine L set a = Ok (Some e, set') -> e <> "OK"%string.
Proof.
  unfold flowDefine. destruct (makeFlow L a) as [[e'|f]| | |] eqn:E; cbn [obind]; try discriminate; [intros H; injection H as <- <-; eapply errors_differ; eauto|].
  destruct (sortFlows _ _); cbn [obind]; discriminate.
Qed.
Lemma run_app L ops2 : forall ops f0 f1 ans, run L f0 ops = Ok (f1, ans) -> run L f0 (ops ++ ops2) = (do (s, l) <- run L f1 ops2; Ok (s, ans ++ l)).
Proof.
  induction ops as [|x ops IH]; intros f0 f1 ans H.
  - cbn [run] in H. injection H as <- <-. cbn [app]. destruct (run L f0 ops2) as [[? ?]| | |]; reflexivity.
  - cbn [run app] in *. destruct x as [a|n].
    + destruct (flowDefine L f0 a) as [[e s1]| | |]; cbn [obind] in *; try discriminate.
      destruct (run L s1 ops) as [[s2 l]| | |] eqn:E; cbn [obind] in *; try discriminate. injection H as <- <-. rewrite (IH _ _ _ E).
      destruct (run L s2 ops2) as [[? ?]| | |]; reflexivity.
    + destruct (flowDelete f0 n) as [r s1]. destruct (run L s1 ops) as [[s2 l]| | |] eqn:E; cbn [obind] in *; try discriminate. injection H as <- <-. rewrite (IH _ _ _ E).
      destruct (run L s2 ops2) as [[? ?]| | |]; reflexivity.
Qed.
Lemma run_define1 L f0 a e f1 : flowDefine L f0 a = Ok (e, f1) -> run L f0 [Define a] = Ok (f1, [Defined e]).
Proof. intros H. cbn [run]. rewrite H. reflexivity. Qed.
Lemma run_more L f0 ops s a e f1 ans : run L f0 ops = Ok (s, ans) -> flowDefine L s a = Ok (e, f1) -> run L f0 (ops ++ [Define a]) = Ok (f1, ans ++ [Defined e]).
Proof. intros H D. rewrite (run_app _ _ _ _ _ _ H), (run_define1 _ _ _ _ _ D). reflexivity. Qed.

(** What requests lead to *)
Definition fin_set (c : flowcmd) (ops : list op) (ans : list Flow_Spec.answer) (s : state) (m : string) : Prop :=
  (m = "OK"%string /\ exists n t lb, c_name c = Some n /\ c_target c = Some t /\ lb <> 0 /\ made_for s lb t /\
     (c_udpencap c = 0 /\ ops = [Define (cmdArgs c n lb)] /\ ans = [Defined None] \/
      c_udpencap c <> 0 /\ ops = [Define (udpArgs c n); Define (cmdArgs c n lb)] /\ ans = [Defined None; Defined None])) \/
  (m <> "OK"%string /\
     (ops = [] /\ ans = [] \/ (exists a e, ops = [Define a] /\ ans = [Defined (Some e)]) \/
      exists n a e, c_name c = Some n /\ c_udpencap c <> 0 /\ ops = [Define (udpArgs c n); Define a] /\ ans = [Defined None; Defined (Some e)])).
Definition fin_delete (c : flowcmd) (ops : list op) (ans : list Flow_Spec.answer) (s : state) (m : string) : Prop :=
  (m = "OK"%string /\ exists n r, c_name c = Some n /\
    (ops = [Delete n] /\ ans = [Deleted r] /\ (forall a u, r = Some (a, u) -> u <= 0) \/
     exists a u r', 0 < u /\ r = Some (a, u) /\ ops = [Delete n; Delete (35 :: n)] /\ ans = [Deleted r; Deleted r'])) \/
  (m <> "OK"%string /\ ops = [] /\ ans = []).
Definition fin (c : flowcmd) (ops : list op) (ans : list Flow_Spec.answer) (s : state) (m : string) : Prop :=
  (c_action c = Some (str "set") -> fin_set c ops ans s m) /\
  (c_action c = Some (str "delete") -> fin_delete c ops ans s m) /\
  (c_action c <> Some (str "set") -> c_action c <> Some (str "delete") -> ops = [] /\ ans = []).

Lemma tok_define L f0 (Fin : list op -> list Flow_Spec.answer -> state -> string -> Prop) (K : state -> Prop) ops ans a k : stable K ->
  (forall s f1 e, K s -> flowDefine L (t_set s) a = Ok (Some e, f1) -> forall s', K s' -> Fin (ops ++ [Define a]) (ans ++ [Defined (Some e)]) s' e) ->
  tok L f0 Fin K (ops ++ [Define a]) (ans ++ [Defined None]) k -> tok L f0 Fin K ops ans (define L a k).
Proof.
  intros S A B. apply tok_act. intros s KS R. destruct (flowDefine L (t_set s) a) as [[[e|] f1]| | |] eqn:E; try exact I; cbn [tokr].
  - split; [apply ext_objs; reflexivity|]. exists K, (ops ++ [Define a]), (ans ++ [Defined (Some e)]). split; auto.
    split; [eapply S; eauto; apply ext_objs; reflexivity|]. split; [exact (run_more _ _ _ _ _ _ _ _ R E)|]. cbn [tok]. intros s' KS'. exact (A s f1 e KS E s' KS').
  - split; [apply ext_objs; reflexivity|]. exists K, (ops ++ [Define a]), (ans ++ [Defined None]). split; auto.
    split; [eapply S; eauto; apply ext_objs; reflexivity|]. split; [exact (run_more _ _ _ _ _ _ _ _ R E)|auto].
Qed.
Lemma tok_set L f0 c t lb : c_target c = Some t -> tok L f0 (fin_set c) (fun s => lb <> 0 -> made_for s lb t) [] [] (setFlow L c lb).
Proof.
  intros T. assert (S : stable (fun s => lb <> 0 -> made_for s lb t)) by apply stable_imp, stable_made.
  unfold setFlow. destruct (Z.eqb_spec lb 0) as [Z0|NZ].
  { cbn [tok]. intros s _. right. split; [discriminate|auto]. }
  destruct (c_name c) as [n|] eqn:N; [|apply tok_stop]. cbv zeta. destruct (Z.eqb_spec (c_udpencap c) 0) as [U|U].
  - apply tok_define; auto.
    + intros s f1 e _ D s' _. right. split; [eapply define_answer; eauto|]. right; left. exists (cmdArgs c n lb), e. split; reflexivity.
    + cbn [tok]. intros s M. left. split; auto. exists n, t, lb. repeat (split; auto).
  - assert (R : forall m, m <> "OK"%string -> tok L f0 (fin_set c) (fun s => lb <> 0 -> made_for s lb t) [] [] (Ret (Reply m))).
    { intros m M. cbn [tok]. intros s _. right. auto. }
    destruct (c_protocols c) as [[|p [|q r]]|]; try exact (tok_stop _ _ _ _ _ _); try (apply R; discriminate).
    destruct (caseeq p _); [|apply R; discriminate]. destruct (1021 <? zlen n); [apply tok_stop|].
    apply tok_define; auto.
    + intros s f1 e _ D s' _. right. split; [eapply define_answer; eauto|]. right; left. exists (udpArgs c n), e. split; reflexivity.
    + cbn [app]. apply tok_define; auto.
      * intros s f1 e _ D s' _. right. split; [eapply define_answer; eauto|]. right; right. exists n, (cmdArgs c n lb), e. split; auto.
      * cbn [tok]. intros s M. left. split; auto. exists n, t, lb. repeat (split; auto).
Qed.
Lemma tok_cmd_set L f0 c : tok L f0 (fin_set c) (fun _ => True) [] [] (cmd_set L c).
Proof.
  assert (TT : stable (fun _ => True)) by (intros s s' _ _; exact I).
  assert (FR : tok L f0 (fin_set c) (fun _ => True) [] [] (findOrCreate (c_target c) (setFlow L c))).
  { destruct (c_target c) as [t|] eqn:T.
    - apply tok_find; auto. intros a. eapply tok_weak; [|apply (tok_set _ _ _ t); auto]. intros s (_ & H); auto.
    - cbn [findOrCreate]. unfold setFlow. cbn [Z.eqb tok]. intros s _. right. split; [discriminate|auto]. }
  unfold cmd_set. apply tok_act. intros s _ R. destruct (c_name c) as [n|] eqn:N.
  - destruct (findName (t_set s) n) as [f|]; [|apply (tok_same L f0 (fin_set c) (fun _ => True) [] []); auto using ext_refl].
    destruct (lockRef s (f_ref f)) as [s'|] eqn:E; [|exact I]. destruct (ext_lock _ _ _ E) as (X & TS).
    apply (tok_same L f0 (fin_set c) (fun _ => True) [] []); auto. apply tok_release; auto.
    destruct (negb _); [cbn [tok]; intros s1 _; right; split; [discriminate|auto]|].
    destruct (c_target c) as [t|] eqn:T; [|apply tok_stop]. apply tok_act. clear s s' E X TS R. intros s _ R.
    destruct (deref s (f_ref f)) as [o|] eqn:D; [|exact I]. destruct (streq t (lb_target o)) eqn:EQ.
    + apply streq_eq in EQ. subst t. cbn [tokr]. split; [apply ext_refl|]. exists (fun s => f_ref f <> 0 -> made_for s (f_ref f) (lb_target o)), [], [].
      split; [apply stable_imp, stable_made|]. split; [intros _; apply made_deref; auto|]. split; auto. apply tok_set; auto.
    + apply (tok_same L f0 (fin_set c) (fun _ => True) [] []); auto using ext_refl. apply tok_find; auto. intros a.
      destruct (a =? 0); [cbn [tok]; intros s1 _; right; split; [discriminate|auto]|]. apply tok_release.
      * apply stable_and; auto. apply stable_imp, stable_made.
      * eapply tok_weak; [|apply (tok_set _ _ _ t); auto]. intros s1 (_ & H); auto.
  - destruct (t_set s) as [|x l] eqn:TS; [|exact I]. rewrite <- TS in R. cbn [tokr]. split; [apply ext_refl|]. exists (fun _ => True), [], []. repeat (split; auto).
Qed.
Lemma tok_cmd_delete L f0 c : tok L f0 (fin_delete c) (fun _ => True) [] [] (cmd_delete c).
Proof.
  assert (TT : stable (fun _ => True)) by (intros s s' _ _; exact I).
  unfold cmd_delete. destruct (c_name c) as [n|] eqn:N; [|cbn [tok]; intros s _; right; split; [discriminate|auto]].
  apply tok_act. intros s _ R. cbn [run] in R. assert (f0 = t_set s) as -> by congruence. clear R.
  destruct (flowDelete (t_set s) n) as [f f1] eqn:D.
  cbn [tokr]. split; [apply ext_objs; reflexivity|].
  set (r := match f with None => None | Some f => Some (f_ref f, f_udpencap f) end).
  exists (fun _ => True), [Delete n], [Deleted r]. split; auto. split; auto.
  split; [cbn [run]; rewrite D; reflexivity|]. apply tok_release; auto.
  destruct f as [f|].
  - destruct (Z.ltb_spec 0 (f_udpencap f)) as [U|U].
    + destruct (1021 <? zlen n); [apply tok_stop|]. apply tok_act. intros s1 _ R1. cbn [tokr]. split; [apply ext_objs; reflexivity|].
      destruct (flowDelete (t_set s1) (35 :: n)) as [g f2] eqn:D2.
      exists (fun _ => True), [Delete n; Delete (35 :: n)], [Deleted r; Deleted (match g with None => None | Some f => Some (f_ref f, f_udpencap f) end)].
      split; auto. split; auto. split.
      * cbn [run] in R1 |- *. rewrite D in *. cbn [obind] in R1. assert (f1 = t_set s1) as E1 by congruence. rewrite E1, D2. cbn [obind snd set_flows t_set]. reflexivity.
      * cbn [tok]. intros s2 _. left. split; auto. exists n, r. split; auto. right. exists (f_ref f), (f_udpencap f). eauto 10.
    + cbn [tok]. intros s2 _. left. split; auto. exists n, r. split; auto. left. repeat (split; auto). intros a u E. unfold r in E. injection E as <- <-. lia.
  - cbn [Z.ltb Z.compare tok]. intros s2 _. left. split; auto. exists n, r. split; auto. left. repeat (split; auto). intros a u E. discriminate.
Qed.
Lemma tok_map L f0 (F G : list op -> list Flow_Spec.answer -> state -> string -> Prop) : (forall ops ans s m, F ops ans s m -> G ops ans s m) ->
  forall p K ops ans, tok L f0 F K ops ans p -> tok L f0 G K ops ans p.
Proof.
  intros H p. apply (prog_mind (fun p => forall K ops ans, tok L f0 F K ops ans p -> tok L f0 G K ops ans p)
    (fun r => forall s, tokr L f0 F s r -> tokr L f0 G s r)); auto.
  - intros [v|m] K ops ans; cbn [tok]; auto.
  - intros l f IH K ops ans T. cbn [tok] in *. intros s KS R. apply IH, T; auto.
  - intros ev s' q IH s (X & K' & o' & a' & S & KS' & R' & T). split; auto. exists K', o', a'. exact (conj S (conj KS' (conj R' (IH _ _ _ T)))).
Qed.
Lemma tok_command L f0 c : tok L f0 (fin c) (fun _ => True) [] [] (command L c).
Proof.
  assert (N : c_action c <> Some (str "set") -> c_action c <> Some (str "delete") -> forall m, tok L f0 (fin c) (fun _ => True) [] [] (Ret (Reply m))).
  { intros A B m. cbn [tok]. intros s _. split; [congruence|]. split; [congruence|]. auto. }
  unfold command. destruct (c_action c) as [a|] eqn:EA; [|apply N; congruence].
  destruct (prefix (str "trace-") a) eqn:EP.
  { apply N; intros H; injection H as ->; discriminate. }
  destruct (streq a (str "set")) eqn:E1.
  { apply streq_eq in E1. subst a. eapply tok_map; [|apply tok_cmd_set]. intros ops ans s m F. unfold fin. rewrite EA. split; [auto|]. split; [discriminate|]. congruence. }
  destruct (streq a (str "delete")) eqn:E2.
  { apply streq_eq in E2. subst a. eapply tok_map; [|apply tok_cmd_delete]. intros ops ans s m F. unfold fin. rewrite EA. split; [discriminate|]. split; [auto|]. congruence. }
  apply streq_neq in E1. apply streq_neq in E2. assert (N' : forall m, tok L f0 (fin c) (fun _ => True) [] [] (Ret (Reply m))) by (apply N; congruence).
  destruct (streq a (str "list")); [|destruct (streq a (str "list-names")); apply N'].
  apply tok_act. intros s _ R. destruct (forallb _ _); [|exact I]. apply (tok_same L f0 (fin c) (fun _ => True) [] []); auto using ext_refl.
  intros s1 s2 _ _. exact I.
Qed.

(** ** Definitions in force *)
Lemma run_length L : forall ops f0 f1 ans, run L f0 ops = Ok (f1, ans) -> length ans = length ops.
Proof.
  induction ops as [|[a|n] ops IH]; intros f0 f1 ans H; cbn [run] in H; [injection H as <- <-; reflexivity|..].
  - destruct (flowDefine L f0 a) as [[e s1]| | |]; cbn [obind] in H; try discriminate. destruct (run L s1 ops) as [[s2 l]| | |] eqn:E; cbn [obind] in H; try discriminate.
    injection H as <- <-. cbn. f_equal. eauto.
  - destruct (flowDelete f0 n) as [r s1]. destruct (run L s1 ops) as [[s2 l]| | |] eqn:E; cbn [obind] in H; try discriminate. injection H as <- <-. cbn. f_equal. eauto.
Qed.
Lemma in_force_app ops2 ans2 : forall ops ans now, length ans = length ops -> in_force now (ops ++ ops2) (ans ++ ans2) = in_force (in_force now ops ans) ops2 ans2.
Proof.
  induction ops as [|o ops IH]; intros [|x ans] now H; try discriminate; [reflexivity|]. injection H as H.
  destruct o as [a|n]; [destruct x as [[e|]|r]|]; cbn [app in_force]; auto.
Qed.
Lemma stands_run L f0 now ops f1 ans : stands L f0 now -> run L f0 ops = Ok (f1, ans) -> stands L f1 (in_force now ops ans).
Proof.
  intros (o & x & R & ->) H. exists (o ++ ops), (x ++ ans). rewrite (run_app _ _ _ _ _ _ R), H. cbn [obind]. split; auto.
  unfold current. rewrite in_force_app; auto. eapply run_length; eauto.
Qed.
Lemma hash_neq (n : chars) : 35 :: n <> n.
Proof. intros H. apply (f_equal (@length Z)) in H. cbn in H. lia. Qed.
Lemma cmd_as c n a : as_requested c n (cmdArgs c n a).
Proof. unfold as_requested. cbn. tauto. Qed.
Lemma udp_as c n : 0 <= c_udpencap c < 65536 -> as_companion c n (udpArgs c n).
Proof.
  intros U. unfold as_companion. cbn [udpArgs a_name a_priority a_udpencap a_protocols a_match a_dports a_sports a_dsts a_srcs a_ref].
  repeat (split; [auto; fail|]). split; [|auto 10]. eexists. split; [reflexivity|]. apply dec_ok. unfold is_u32, UINT_MAX. lia.
Qed.
Lemma at_same (n : chars) (now : chars -> option fargs) x : (if streq n n then x else now n) = x.
Proof. rewrite streq_refl. reflexivity. Qed.
Lemma neq_streq a b : a <> b -> streq a b = false.
Proof. apply streq_neq. Qed.
Lemma fin_answered L c f0 f1 now ops ans s m : libc_ok L -> 0 <= c_udpencap c < 65536 -> stands L f0 now -> run L f0 ops = Ok (f1, ans) ->
  fin c ops ans s m -> answered_request c m s now (in_force now ops ans).
Proof.
  intros HL U (o & x & R0 & EN) R (A & B & C). pose proof (hash_neq : forall n : chars, _) as HN. split; [|split; [|split; [|split]]].
  - intros X ->. destruct (A X) as [(_ & n & t & lb & N & T & NZ & M & D)|(Q & _)]; [|congruence].
    exists n, t, (cmdArgs c n lb). split; auto. split; auto. destruct D as [(U0 & -> & ->)|(U0 & -> & ->)]; cbn [in_force a_name cmdArgs udpArgs].
    + rewrite streq_refl. split; auto. split; [apply cmd_as|]. split; auto. split; auto. split; [|congruence]. intros _ k K. rewrite neq_streq; auto.
    + rewrite streq_refl. split; auto. split; [apply cmd_as|]. split; auto. split; auto. split; [congruence|]. intros _. split.
      * exists (udpArgs c n). cbn [str app]. change (str "#" ++ n) with (35 :: n). rewrite streq_refl, neq_streq by auto. split; auto. apply udp_as; auto.
      * change (str "#" ++ n) with (35 :: n). intros k K1 K2. rewrite !neq_streq; auto.
  - intros X Q. destruct (A X) as [(Y & _)|(_ & D)]; [congruence|]. destruct D as [(-> & ->)|[(a & e & -> & ->)|(n & a & e & N & U0 & -> & ->)]]; cbn [in_force].
    + left. auto.
    + left. auto.
    + right. exists n, (udpArgs c n). split; auto. split; auto. split; [apply udp_as; auto|]. change (str "#" ++ n) with (35 :: n). cbn [a_name udpArgs]. rewrite streq_refl.
      split; auto. intros k K. rewrite neq_streq; auto.
  - intros X ->. destruct (B X) as [(_ & n & r & N & D)|(Q & _)]; [|congruence]. exists n. split; auto.
    destruct (run_inv L o HL [] _ f0 x (inv_nil L) R0) as (IV & _). fold (current o x) in IV. rewrite <- EN in IV.
    destruct (run_inv L ops HL _ _ _ _ IV R) as (_ & DO).
    change (str "#" ++ n) with (35 :: n).
    destruct D as [(-> & -> & Z0)|(a & u & r' & P & -> & -> & ->)]; cbn [in_force deletions_ok] in *.
    + destruct DO as (DO & _). rewrite streq_refl. split; auto. destruct (now n) as [y|].
      * rewrite DO in Z0. specialize (Z0 _ _ eq_refl). destruct (Z.ltb_spec 0 (a_udpencap y)); [lia|]. intros k K. rewrite neq_streq; auto.
      * intros k K. rewrite neq_streq; auto.
    + destruct DO as (DO & _). rewrite streq_refl. split; [destruct (streq n _); auto|]. destruct (now n) as [y|]; [|discriminate]. injection DO as -> ->.
      destruct (Z.ltb_spec 0 (a_udpencap y)); [|lia]. rewrite streq_refl. split; auto. intros k K1 K2. rewrite !neq_streq; auto.
  - intros X Q. destruct (B X) as [(Y & _)|(_ & -> & ->)]; [congruence|reflexivity].
  - intros X Y. destruct (C X Y) as (-> & ->). reflexivity.
Qed.

(** ** Executions *)
Lemma upd_In {A} (v y : A) : forall l n, In y (upd l n v) -> y = v \/ In y l.
Proof. induction l as [|x l IH]; intros [|n] H; cbn in *; auto. - destruct H; auto. - destruct H as [H|H]; auto. destruct (IH _ H); auto. Qed.
Lemma zupd_In {A} (v y : A) l i : In y (zupd l i v) -> y = v \/ In y l.
Proof. unfold zupd. destruct (i <? 0); auto. apply upd_In. Qed.
Lemma exec_packets h w0 tr w : exec h anything w0 tr w -> Forall stays (w_pk w0) -> Forall stays (w_pk w).
Proof.
  intros H P. induction H as [w|w0 tr w1 m ev w2 H IH _ E]; auto. specialize (IH P). destruct m as [now done eth data|c| |j|shm' mem']; cbn [step] in E.
  - injection E as <- <-. cbn [w_pk]. apply Forall_app. split; auto. constructor; [apply stays_packet|constructor].
  - destruct (idle (w_flow w1)); [|discriminate]. injection E as <- <-. auto.
  - destruct (w_flow w1) as [r|l f]; [discriminate|]. destruct (f (w_st w1)); try discriminate. injection E as <- <-. auto.
  - destruct (znth (w_pk w1) j) as [[r|l f]|] eqn:EJ; try discriminate. destruct (f (w_st w1)) as [ev' s' p'| |] eqn:EF; try discriminate. injection E as <- <-. cbn [w_pk].
    rewrite Forall_forall in IH. pose proof (IH _ (znth_In _ _ _ _ EJ)) as V. cbn [stays] in V. specialize (V (w_st w1)). rewrite EF in V. destruct V as (_ & V).
    apply Forall_forall. intros y Y. apply zupd_In in Y. destruct Y as [->|Y]; auto.
  - injection E as <- <-. auto.
Qed.
Definition track (L : libc) (c : flowcmd) (f0 : list frec) (w : world) : Prop :=
  exists K ops ans, stable K /\ K (w_st w) /\ run L f0 ops = Ok (t_set (w_st w), ans) /\ tok L f0 (fin c) K ops ans (w_flow w).
Lemma track_step h c f0 w m ev w' : Forall stays (w_pk w) -> track (h_lib h) c f0 w -> step h w m = Some (Cont w' ev) -> (forall c', m <> Command c') -> track (h_lib h) c f0 w'.
Proof.
  intros P (K & ops & ans & S & KS & R & T) E NC. assert (G : forall s, ext (w_st w) s -> t_set s = t_set (w_st w) -> forall pk, track (h_lib h) c f0 (mkW s (w_flow w) pk)).
  { intros s X TS pk. exists K, ops, ans. cbn [w_st w_flow]. rewrite TS. split; auto. split; [eapply S; eauto|]. auto. }
  destruct m as [now done eth data|c'| |j|shm' mem']; cbn [step] in E.
  - injection E as <- <-. apply G; auto using ext_refl.
  - destruct (NC c'). reflexivity.
  - destruct (w_flow w) as [r|l f] eqn:EW; [discriminate|]. destruct (f (w_st w)) as [ev' s' p'| |] eqn:EF; try discriminate. injection E as <- <-.
    cbn [tok] in T. specialize (T _ KS R). rewrite EF in T. cbn [tokr] in T. destruct T as (_ & K' & o' & a' & S' & KS' & R' & T'). exists K', o', a'. auto.
  - destruct (znth (w_pk w) j) as [[r|l f]|] eqn:EJ; try discriminate. destruct (f (w_st w)) as [ev' s' p'| |] eqn:EF; try discriminate. injection E as <- <-.
    rewrite Forall_forall in P. pose proof (P _ (znth_In _ _ _ _ EJ)) as V. cbn [stays] in V. specialize (V (w_st w)). rewrite EF in V. destruct V as ((V1 & V2) & _). apply G; auto.
  - injection E as <- <-. apply G; [apply ext_objs; reflexivity|reflexivity].
Qed.
Lemma exec_cons h may w0 tr w : exec h may w0 tr w -> forall x tr', tr = x :: tr' -> exists w1, may w0 (fst x) /\ step h w0 (fst x) = Some (Cont w1 (snd x)) /\ exec h may w1 tr' w.
Proof.
  intros H. induction H as [w|w0 tr w1 m ev w2 H IH M E]; intros x tr' EQ; [discriminate|]. destruct tr as [|y tr].
  - injection EQ as <- <-. inversion H as [|? ? ? ? ? ? ? ? ? Q]; subst; [|destruct tr; discriminate]. exists w2. split; auto. split; auto. constructor.
  - injection EQ as -> <-. destruct (IH _ _ eq_refl) as (w' & A & B & C). exists w'. split; auto. split; auto. econstructor; eauto.
Qed.
Lemma exec_app h may w0 tr1 w1 tr2 w2 : exec h may w0 tr1 w1 -> exec h may w1 tr2 w2 -> exec h may w0 (tr1 ++ tr2) w2.
Proof. intros A B. induction B as [w|w1 tr w3 m ev w2 B IH M E]; [rewrite app_nil_r; auto|]. rewrite app_assoc. econstructor; eauto. Qed.
Lemma track_exec h c f0 w tr w' : exec h anything w tr w' -> Forall stays (w_pk w) -> no_command tr -> track (h_lib h) c f0 w -> track (h_lib h) c f0 w'.
Proof.
  intros H P NC T. induction H as [w|w0 tr w1 m ev w2 H IH _ E]; auto. assert (NC1 : no_command tr) by (intros c' ev' X; eapply NC; apply in_or_app; left; exact X).
  eapply track_step; [eapply exec_packets; eauto|apply IH; auto|exact E|]. intros c' ->. eapply NC. apply in_or_app. right. left. reflexivity.
Qed.
Lemma requests_answered h w1 c ev tr w2 m now : libc_ok (h_lib h) -> 0 <= c_udpencap c < 65536 -> Forall stays (w_pk w1) ->
  stands (h_lib h) (t_set (w_st w1)) now ->
  exec h anything w1 ((Command c, ev) :: tr) w2 -> no_command tr -> w_flow w2 = Ret (Reply m) ->
  exists now', stands (h_lib h) (t_set (w_st w2)) now' /\ answered_request c m (w_st w2) now now'.
Proof.
  intros HL U P S H NC EM. destruct (exec_cons _ _ _ _ _ H _ _ eq_refl) as (w' & _ & E & H'). cbn [fst snd step] in *.
  destruct (idle (w_flow w1)); [|discriminate]. injection E as <- <-.
  assert (T : track (h_lib h) c (t_set (w_st w1)) (mkW (w_st w1) (command (h_lib h) c) (w_pk w1))).
  { exists (fun _ => True), [], []. split; [intros s s' _ _; exact I|]. split; auto. split; [reflexivity|]. apply tok_command. }
  apply (track_exec _ _ _ _ _ _ H') in T; auto. destruct T as (K & ops & ans & _ & KS & R & T). rewrite EM in T. cbn [tok] in T.
  exists (in_force now ops ans). split; [eapply stands_run; eauto|]. eapply fin_answered; eauto.
Qed.
Lemma stands_nil L : stands L [] (fun _ => None).
Proof. exists [], []. split; reflexivity. Qed.
Definition J (h : hconf) (w : world) : Prop :=
  Forall stays (w_pk w) /\ exists c f0 now, stands (h_lib h) f0 now /\ track (h_lib h) c f0 w.
Lemma J_stands h w : J h w -> exists now, stands (h_lib h) (t_set (w_st w)) now.
Proof. intros (_ & c & f0 & now & S & K & ops & ans & _ & _ & R & _). eexists. eapply stands_run; eauto. Qed.
Lemma J_exec h shm mem tr w : exec h anything (start h shm mem) tr w -> J h w.
Proof.
  intros H. remember (start h shm mem) as w0 eqn:E0. induction H as [w|w0 tr w1 m ev w2 H IH M E]; subst.
  - split; [constructor|]. exists empty_cmd, [], (fun _ => None). split; [apply stands_nil|]. exists (fun _ => True), [], [].
    split; [intros s s' _ _; exact I|]. split; auto. split; [reflexivity|]. cbn [start w_flow tok]. intros s _. split; [discriminate|]. split; [discriminate|auto].
  - specialize (IH eq_refl). assert (P : Forall stays (w_pk w2)) by (eapply (exec_packets h w1 ([] ++ [(m, ev)])); [econstructor; [constructor|exact I|exact E]|apply IH]).
    split; auto. destruct m as [now done eth data|c| |j|shm' mem']; try (destruct IH as (P1 & c0 & f0 & now0 & S & T); exists c0, f0, now0; split; [exact S|exact (track_step _ _ _ _ _ _ _ P1 T E ltac:(discriminate))]).
    cbn [step] in E. destruct (idle (w_flow w1)); [|discriminate]. injection E as <- <-. destruct (J_stands _ _ IH) as (now & S).
    exists c, (t_set (w_st w1)), now. split; auto. exists (fun _ => True), [], []. split; [intros s s' _ _; exact I|]. split; auto. split; [reflexivity|]. apply tok_command.
Qed.
Lemma always_stands h shm mem tr w : exec h anything (start h shm mem) tr w -> exists now, stands (h_lib h) (t_set (w_st w)) now.
Proof. intros H. eapply J_stands, J_exec; eauto. Qed.
Lemma answered h shm mem tr1 w1 c ev tr2 w2 m now : libc_ok (h_lib h) -> 0 <= c_udpencap c < 65536 ->
  exec h anything (start h shm mem) tr1 w1 -> stands (h_lib h) (t_set (w_st w1)) now ->
  exec h anything w1 ((Command c, ev) :: tr2) w2 -> no_command tr2 -> w_flow w2 = Ret (Reply m) ->
  exists now', stands (h_lib h) (t_set (w_st w2)) now' /\ answered_request c m (w_st w2) now now'.
Proof. intros. eapply requests_answered; eauto. apply (J_exec _ _ _ _ _ H1). Qed.
(** Between requests nothing changes. *)
Lemma unchanged h shm mem tr1 w1 tr2 w2 : exec h anything (start h shm mem) tr1 w1 -> idle (w_flow w1) = true ->
  exec h anything w1 tr2 w2 -> no_command tr2 -> t_set (w_st w2) = t_set (w_st w1).
Proof.
  intros H I0 H2 NC. destruct (J_exec _ _ _ _ _ H) as (P & _). clear H.
  assert (G : t_set (w_st w2) = t_set (w_st w1) /\ idle (w_flow w2) = true); [|apply G].
  induction H2 as [w|w0 tr w' m ev w2 H IH _ E]; auto. assert (NC1 : no_command tr) by (intros c' ev' X; eapply NC; apply in_or_app; left; exact X).
  destruct (IH I0 NC1 P) as (A & B). pose proof (exec_packets _ _ _ _ H P) as P2. rewrite <- A. destruct m as [now done eth data|c| |j|shm' mem']; cbn [step] in E.
  - injection E as <- <-. auto.
  - exfalso. eapply NC. apply in_or_app. right. left. reflexivity.
  - destruct (w_flow w') as [r|l f]; discriminate.
  - destruct (znth (w_pk w') j) as [[r|l f]|] eqn:EJ; try discriminate. destruct (f (w_st w')) as [ev' s' p'| |] eqn:EF; try discriminate. injection E as <- <-.
    rewrite Forall_forall in P2. pose proof (P2 _ (znth_In _ _ _ _ EJ)) as V. cbn [stays] in V. specialize (V (w_st w')). rewrite EF in V. destruct V as ((V1 & V2) & _). auto.
  - injection E as <- <-. auto.
Qed.
