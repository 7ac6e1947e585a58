(** C78: what the clients print, and their status. *)
From Coq Require Import String.
From Verif Require Import Base Lists Cstr_Model Util_Spec Util_Proofs Flow_Model Flow_Spec Flow2_Proofs Match_Model Remote_Model Remote_Spec Remote_Proofs
  FlowLb_Model FlowLb_Spec FlowLb3_Proofs FlowLb4_Proofs FlowLb5_Proofs Requests_Spec Requests_Proofs Requests2_Proofs Print_Model Trace_Model Trace_Spec
  Client_Model Client_Spec Opt_Model Opt_Spec Opt_Proofs FlowSet_Spec Opt2_Proofs Client_Proofs.

(** ** Reading an answer *)
Lemma in_firstn {A} n (l : list A) x : In x (firstn n l) -> In x l.
Proof. intros H. rewrite <- (firstn_skipn n l), in_app_iff. auto. Qed.
Lemma upTo0_ok t r : ~ In 0 t -> upTo0 (t ++ 0 :: r) = Some t.
Proof.
  induction t as [|c t IH]; intros N; cbn [app upTo0].
  - reflexivity.
  - destruct (Z.eqb_spec c 0); [subst; destruct N; left; reflexivity|]. rewrite IH; [reflexivity|]. intros X. apply N. right. exact X.
Qed.
Lemma upTo0_none t : ~ In 0 t -> upTo0 t = None.
Proof.
  induction t as [|c t IH]; intros N; cbn [upTo0]; [reflexivity|]. destruct (Z.eqb_spec c 0); [subst; destruct N; left; reflexivity|].
  rewrite IH; [reflexivity|]. intros X. apply N. right. exact X.
Qed.
Lemma talk_short junk t : ~ In 0 t -> zlen t <= 63 ->
  talkEnd junk (firstn 64 (written t)) = Ok (t ++ [10], if prefix (str "OK") t then 0 else -1).
Proof.
  intros N L. rewrite firstn_all2 by (unfold written, zlen in *; rewrite app_length; cbn [length]; lia). unfold talkEnd, written.
  destruct (t ++ [0]) as [|x l] eqn:E; [destruct t; discriminate|]. rewrite <- E. rewrite <- app_assoc. cbn [app]. rewrite upTo0_ok by exact N. reflexivity.
Qed.
Lemma talk_long junk t : ~ In 0 t -> zlen junk = 64 -> 64 <= zlen t -> talkEnd junk (firstn 64 (written t)) = UB.
Proof.
  intros N J L. unfold zlen in *. assert (E : firstn 64 (written t) = firstn 64 t). { unfold written. rewrite firstn_app. replace (64 - length t)%nat with O by lia. rewrite app_nil_r. reflexivity. }
  rewrite E. unfold talkEnd. assert (F : length (firstn 64 t) = 64%nat) by (rewrite firstn_length; lia). rewrite F.
  rewrite skipn_all2 by lia. rewrite app_nil_r. rewrite upTo0_none; [|intros X; apply N; eapply in_firstn; exact X].
  destruct (firstn 64 t); [discriminate|reflexivity].
Qed.
Lemma talk_total junk got : zlen junk = 64 -> zlen got <= 64 -> (exists o, talkEnd junk got = Ok o) \/ talkEnd junk got = UB.
Proof. intros _ _. unfold talkEnd. destruct got; [eauto|]. destruct (upTo0 _); eauto. Qed.

Lemma piece_status junk : znth junk 1 <> Some 75 -> forall out st, talkEnd junk [79] = Ok (out, st) -> st = -1.
Proof.
  intros N out st H. destruct junk as [|j0 [|j1 junk]]; [discriminate|discriminate|]. change (znth (j0 :: j1 :: junk) 1) with (Some j1) in N.
  unfold talkEnd in H. cbn [length skipn app] in H. change (upTo0 (79 :: j1 :: junk)) with (match upTo0 (j1 :: junk) with Some a => Some (79 :: a) | None => None end) in H.
  destruct (upTo0 (j1 :: junk)) as [x|] eqn:U; [|discriminate].
  assert (X : prefix (str "OK") (79 :: x) = false).
  { cbn [upTo0] in U. destruct (j1 =? 0); [inversion U; reflexivity|]. destruct (upTo0 junk) as [y|]; [|discriminate]. inversion U.
    change (prefix (str "OK") (79 :: j1 :: y)) with ((75 =? j1) && true). destruct (Z.eqb_spec 75 j1); [destruct N; congruence|reflexivity]. }
  rewrite X in H. inversion H. reflexivity.
Qed.

(** ** Copying *)
Lemma copy_all l t : arrives t l -> listEnd l = (t, 0).
Proof.
  intros (-> & F). unfold listEnd. f_equal. induction F as [|(b & n) l (B & _ & N) F IH]; [reflexivity|]. cbn [fst snd] in *. cbn [copyOut map concat fst].
  destruct b as [|x b]; [destruct B; reflexivity|]. rewrite IH. f_equal. rewrite N. unfold zlen. rewrite Nat2Z.id. apply firstn_all.
Qed.

(** ** The texts of the replies *)
Definition match_errors : list string :=
  ["String too long"; "Doesn't match regexp"; "Unknown protocol"; "Nbytes invalid"; "Out of bounds"]%string.
Lemma matchParse_errors s e : matchParse s = Ok (inl e) -> In e match_errors.
Proof.
  unfold matchParse. destruct (64 <? zlen s); [intros H; inversion H; cbn; tauto|]. destruct (negb (regexec REGEX s)); [intros H; inversion H; cbn; tauto|].
  match goal with |- match ?o with _ => _ end = _ -> _ => destruct o as [p|] end; [|intros H; inversion H; cbn; tauto].
  destruct (Match_Model.after 91 s) as [x| | |]; cbn [obind]; try discriminate. destruct (strtol 0 x) as [off e1].
  destruct (Match_Model.after 58 e1) as [y| | |]; cbn [obind]; try discriminate. destruct (strtol 0 y) as [nb e2].
  destruct (_ && _ && _); [intros H; inversion H; cbn; tauto|]. destruct (_ <? _); [intros H; inversion H; cbn; tauto|].
  match goal with |- (let '(_, _) := ?o in _) = _ -> _ => destruct o as [mask e3] end.
  destruct (Match_Model.after 61 e3); cbn [obind]; discriminate.
Qed.
Lemma matchAdd_errors m s e : matchAdd m s = Ok (inl e) -> In e match_errors.
Proof.
  unfold matchAdd. destruct (matchParse s) as [[x|i]| | |] eqn:P; cbn [obind]; try discriminate. intros H. inversion H; subst x. eapply matchParse_errors; eauto.
Qed.
Lemma match_text m l : addMatches m l = Ok None ->
  exists s e, In s l /\ In e match_errors /\ matchText m l = Ok (firstn 127 (str "Match [" ++ s ++ str "] " ++ str e)).
Proof.
  revert m. induction l as [|s l IH]; intros m H; cbn [addMatches] in H; [discriminate|]. cbn [matchText].
  destruct (matchAdd m s) as [[e|m']| | |] eqn:A; try discriminate; cbn [obind] in *.
  - exists s, e. split; [left; reflexivity|]. split; [eapply matchAdd_errors; eauto|reflexivity].
  - destruct (IH m' H) as (s' & e & I & E & T). exists s', e. split; [right; exact I|]. auto.
Qed.
Definition fixed_replies : list string :=
  ["OK"; "FAIL: Couldn't create load-balancer"; "FAIL: only sctp for updencap"; "FAIL: Alter udpencap not allowed";
   "FAIL: Couldn't create new load-balancer"; "FAIL: no name"; "Name too long"; "Invalid protocols"; "Invalid dports"; "Invalid dsts"; "Invalid srcs"]%string.
Definition reply_of (c : flowcmd) (m : string) : Prop :=
  In m fixed_replies \/ (m = "Match"%string /\ exists l, c_match c = Some l /\ addMatches matchCreate l = Ok None).
Lemma ifgiven_err {A B} e (x : option A) (f : A -> outcome (option B)) e' : ifgiven e x f = Ok (inl e') -> e' = e /\ exists a, x = Some a /\ f a = Ok None.
Proof.
  unfold ifgiven. destruct x as [a|]; [|discriminate]. destruct (f a) as [[b|]| | |] eqn:E; cbn [obind]; try discriminate. intros H. inversion H. eauto.
Qed.
Ltac known := left; unfold fixed_replies; cbn; tauto.
Lemma define_errors L set a e set' : flowDefine L set a = Ok (Some e, set') ->
  In e fixed_replies \/ (e = "Match"%string /\ exists l, a_match a = Some l /\ addMatches matchCreate l = Ok None).
Proof.
  unfold flowDefine. destruct (makeFlow L a) as [[e1|f]| | |] eqn:M; cbn [obind]; try discriminate;
    [|destruct (sortFlows L (insertFlow f set)); cbn [obind]; discriminate].
  intros H. inversion H; subst e1 set'. clear H. unfold makeFlow in M. destruct (MAX_NAME <=? zlen (a_name a)); [inversion M; known|].
  destruct (ifgiven "Invalid protocols" _ _) as [[x|p]| | |] eqn:E; cbn [obind] in M; try discriminate;
    [apply ifgiven_err in E; destruct E as (E & _); inversion M; subst; known|]. clear E.
  destruct (ifgiven "Invalid dports" (a_dports a) _) as [[x|dp]| | |] eqn:E; cbn [obind] in M; try discriminate;
    [apply ifgiven_err in E; destruct E as (E & _); inversion M; subst; known|]. clear E.
  destruct (ifgiven "Invalid dports" (a_sports a) _) as [[x|sp]| | |] eqn:E; cbn [obind] in M; try discriminate;
    [apply ifgiven_err in E; destruct E as (E & _); inversion M; subst; known|]. clear E.
  destruct (ifgiven "Invalid dsts" _ _) as [[x|ds]| | |] eqn:E; cbn [obind] in M; try discriminate;
    [apply ifgiven_err in E; destruct E as (E & _); inversion M; subst; known|]. clear E.
  destruct (ifgiven "Invalid srcs" _ _) as [[x|ss]| | |] eqn:E; cbn [obind] in M; try discriminate;
    [apply ifgiven_err in E; destruct E as (E & _); inversion M; subst; known|]. clear E.
  destruct (ifgiven "Match" _ _) as [[x|mm]| | |] eqn:E; cbn [obind] in M; try discriminate.
  apply ifgiven_err in E. destruct E as (E & l & E2 & E3). inversion M; subst. right. split; [reflexivity|]. exists l. auto.
Qed.

Lemma define_not_ok L set a set' : flowDefine L set a <> Ok (Some "OK"%string, set').
Proof.
  unfold flowDefine. destruct (makeFlow L a) as [[e1|f]| | |] eqn:M; cbn [obind]; try discriminate;
    [|destruct (sortFlows L (insertFlow f set)); cbn [obind]; discriminate].
  intros H. inversion H; subst e1 set'. clear H. unfold makeFlow in M. destruct (MAX_NAME <=? zlen (a_name a)); [inversion M|].
  destruct (ifgiven "Invalid protocols" _ _) as [[x|p]| | |] eqn:E; cbn [obind] in M; try discriminate;
    [apply ifgiven_err in E; destruct E as (E & _); subst x; discriminate|]. clear E.
  destruct (ifgiven "Invalid dports" (a_dports a) _) as [[x|dp]| | |] eqn:E; cbn [obind] in M; try discriminate;
    [apply ifgiven_err in E; destruct E as (E & _); subst x; discriminate|]. clear E.
  destruct (ifgiven "Invalid dports" (a_sports a) _) as [[x|sp]| | |] eqn:E; cbn [obind] in M; try discriminate;
    [apply ifgiven_err in E; destruct E as (E & _); subst x; discriminate|]. clear E.
  destruct (ifgiven "Invalid dsts" _ _) as [[x|ds]| | |] eqn:E; cbn [obind] in M; try discriminate;
    [apply ifgiven_err in E; destruct E as (E & _); subst x; discriminate|]. clear E.
  destruct (ifgiven "Invalid srcs" _ _) as [[x|ss]| | |] eqn:E; cbn [obind] in M; try discriminate;
    [apply ifgiven_err in E; destruct E as (E & _); subst x; discriminate|]. clear E.
  destruct (ifgiven "Match" _ _) as [[x|mm]| | |] eqn:E; cbn [obind] in M; try discriminate.
  apply ifgiven_err in E; destruct E as (E & _); subst x; discriminate.
Qed.

(** ** The replies to requests *)
Section Replies.
Variable Q : string -> Prop.
Fixpoint saying (p : prog) : Prop :=
  match p with
  | Ret (Reply m) => Q m
  | Ret (Verdict _) => True
  | Act _ f => forall s, sayingr (f s)
  end
with sayingr (r : result) : Prop :=
  match r with Next _ _ p => saying p | _ => True end.
Lemma saying_act l f : (forall s, sayingr (f s)) -> saying (Act l f).
Proof. auto. Qed.
Lemma saying_stop : saying stop.
Proof. cbn. auto. Qed.
Lemma saying_release l a k : saying k -> saying (release l a k).
Proof.
  intros K. unfold release. destruct (a =? 0); [exact K|]. apply saying_act; intros s.
  destruct (deref s a); [|exact I]. destruct (_ <? 0); [exact I|]. destruct (_ =? 0); [|exact K].
  cbn [sayingr]; apply saying_act; intros s2. destruct (deref s2 a); [|exact I]. destruct (unlink s2 (t_list s2) a); [|exact I].
  cbn [sayingr]; apply saying_act; intros s3. destruct (deref s3 a); [exact K|exact I].
Qed.
Lemma saying_find t k : (forall a, saying (k a)) -> saying (findOrCreate t k).
Proof.
  intros K. unfold findOrCreate. destruct t as [c|]; [|apply K]. apply saying_act; intros s.
  destruct (search s (t_list s) c); [exact I| |]; [destruct (t_shm s c); apply K|destruct (lockRef s a); [apply K|exact I]].
Qed.
Lemma saying_define L a k : (forall set e set', flowDefine L set a = Ok (Some e, set') -> Q e) -> saying k -> saying (define L a k).
Proof.
  intros E K. unfold define. apply saying_act; intros s. destruct (flowDefine L (t_set s) a) as [[[e|] set]| | |] eqn:D; try exact I; [eapply E; eauto|exact K].
Qed.
End Replies.
Lemma saying_setFlow L c a : saying (reply_of c) (setFlow L c a).
Proof.
  unfold setFlow. destruct (a =? 0); [known|]. destruct (c_name c) as [n|]; [|apply saying_stop].
  assert (M : saying (reply_of c) (define L (cmdArgs c n a) (Ret (Reply "OK")))).
  { apply saying_define; [|known]. intros set e set' H. apply define_errors in H. exact H. }
  destruct (c_udpencap c =? 0); [exact M|]. destruct (c_protocols c) as [[|p [|]]|]; try known; [apply saying_stop|].
  destruct (caseeq _ _); [|known]. destruct (_ <? _); [apply saying_stop|]. apply saying_define; [|exact M].
  intros set e set' H. apply define_errors in H. destruct H as [H|(_ & l & X & _)]; [left; exact H|discriminate].
Qed.
Lemma saying_set L c : saying (reply_of c) (cmd_set L c).
Proof.
  assert (F : saying (reply_of c) (findOrCreate (c_target c) (setFlow L c))) by (apply saying_find; intros x; apply saying_setFlow).
  unfold cmd_set. apply saying_act; intros s. destruct (c_name c) as [n|] eqn:EN; [|destruct (t_set s); [exact F|exact I]].
  destruct (findName (t_set s) n) as [f|]; [|exact F]. destruct (lockRef s (f_ref f)); [|exact I]. cbn [sayingr].
  apply saying_release. destruct (negb _); [known|]. destruct (c_target c) as [t|]; [|apply saying_stop].
  apply saying_act; intros s1. destruct (deref s1 (f_ref f)); [|exact I]. destruct (streq t _); [apply saying_setFlow|].
  apply saying_find. intros x. destruct (x =? 0); [known|]. apply saying_release. apply saying_setFlow.
Qed.
Lemma saying_delete c : saying (reply_of c) (cmd_delete c).
Proof.
  unfold cmd_delete. destruct (c_name c) as [n|]; [|known]. apply saying_act; intros s. destruct (flowDelete (t_set s) n) as [r set'].
  apply saying_release. destruct (_ <? _); [|known]. destruct (_ <? _); [apply saying_stop|]. apply saying_act; intros. known.
Qed.
Definition changes (c : flowcmd) : Prop := c_action c = Some (str "set") \/ c_action c = Some (str "delete").
Lemma saying_command L c : changes c -> saying (reply_of c) (command L c).
Proof.
  unfold command. intros [-> | ->].
  - change (prefix (str "trace-") (str "set")) with false. cbv iota. rewrite streq_refl. apply saying_set.
  - change (prefix (str "trace-") (str "delete")) with false. change (streq (str "delete") (str "set")) with false. cbv iota. rewrite streq_refl. apply saying_delete.
Qed.
Lemma exec_saying Q h may w1 c ev tr w2 m : saying Q (command (h_lib h) c) -> exec h may w1 ((Command c, ev) :: tr) w2 -> no_command tr -> w_flow w2 = Ret (Reply m) -> Q m.
Proof.
  intros CH H NC FL. destruct (exec_cons _ _ _ _ _ H _ _ eq_refl) as (w' & _ & E & H'). cbn [fst snd step] in E. clear H.
  destruct (idle (w_flow w1)); [|discriminate]. injection E as <- <-.
  assert (G : saying Q (w_flow w2)).
  { clear FL. remember (mkW (w_st w1) (command (h_lib h) c) (w_pk w1)) as w0 eqn:E0. revert E0.
    induction H' as [w|w0 tr w' mv e w3 H IH M E]; intros E0.
    - subst w. exact CH.
    - assert (NC1 : no_command tr) by (intros c' e' X; eapply NC; apply in_or_app; left; exact X).
      assert (W := IH NC1 E0). destruct mv as [now done eth data|c'| |j|shm' mem']; cbn [step] in E.
      + injection E as <- <-. exact W.
      + exfalso. eapply NC. apply in_or_app. right. left. reflexivity.
      + destruct (w_flow w') as [r|l f]; [discriminate|]. cbn [saying] in W. specialize (W (w_st w')).
        destruct (f (w_st w')) as [e' s' p'| |]; try discriminate. injection E as <- <-. exact W.
      + destruct (znth (w_pk w') j) as [[r|l f]|]; try discriminate. destruct (f (w_st w')) as [e' s' p'| |]; try discriminate.
        injection E as <- <-. exact W.
      + injection E as <- <-. exact W. }
  rewrite FL in G. exact G.
Qed.
Lemma exec_reply h may w1 c ev tr w2 m : changes c -> exec h may w1 ((Command c, ev) :: tr) w2 -> no_command tr -> w_flow w2 = Ret (Reply m) -> reply_of c m.
Proof. intros CH. apply exec_saying. apply saying_command. exact CH. Qed.
Lemma delete_reply h may w1 c ev tr w2 m : c_action c = Some (str "delete") -> c_name c <> None ->
  exec h may w1 ((Command c, ev) :: tr) w2 -> no_command tr -> w_flow w2 = Ret (Reply m) -> m = "OK"%string.
Proof.
  intros A N. apply (exec_saying (fun m => m = "OK"%string)). unfold command. rewrite A.
  change (prefix (str "trace-") (str "delete")) with false. change (streq (str "delete") (str "set")) with false. cbv iota. rewrite streq_refl.
  unfold cmd_delete. destruct (c_name c) as [n|]; [|destruct N; reflexivity]. apply saying_act; intros s. destruct (flowDelete (t_set s) n) as [r set'].
  apply saying_release. destruct (_ <? _); [|reflexivity]. destruct (_ <? _); [apply saying_stop|]. apply saying_act; intros. reflexivity.
Qed.

(** ** Their texts *)
Definition no0 (c : flowcmd) : Prop := forall l s, c_match c = Some l -> In s l -> ~ In 0 s.
Lemma fixed_ok m : In m fixed_replies -> String.eqb m "Match" = false /\ zlen (str m) <= 63 /\ ~ In 0 (str m) /\ (prefix (str "OK") (str m) = true <-> m = "OK"%string).
Proof.
  intros I. assert (F : Forall (fun m => String.eqb m "Match" = false /\ zlen (str m) <= 63 /\ ~ In 0 (str m) /\ (prefix (str "OK") (str m) = true <-> m = "OK"%string)) fixed_replies).
  { unfold fixed_replies.
    repeat (constructor; [split; [reflexivity|split; [vm_compute; discriminate|split; [vm_compute; intuition discriminate|split; [try discriminate; reflexivity|try discriminate; reflexivity]]]]|]).
    constructor. }
  rewrite Forall_forall in F. apply F. exact I.
Qed.
Lemma match_error_ok e : In e match_errors -> zlen (str e) <= 20 /\ ~ In 0 (str e).
Proof.
  intros I. assert (F : Forall (fun e => zlen (str e) <= 20 /\ ~ In 0 (str e)) match_errors).
  { unfold match_errors. repeat (constructor; [split; [vm_compute; discriminate|vm_compute; intuition discriminate]|]). constructor. }
  rewrite Forall_forall in F. apply F. exact I.
Qed.
Lemma reply_text c m : reply_of c m -> exists t, replyText c m = Ok t /\ (short_matches c -> zlen t <= 63) /\ (no0 c -> ~ In 0 t) /\
  (prefix (str "OK") t = true <-> m = "OK"%string).
Proof.
  intros [I|(-> & l & E & A)]; unfold replyText.
  - destruct (fixed_ok m I) as (N & L & Z & P). rewrite N. exists (str m). auto.
  - rewrite String.eqb_refl, E. destruct (match_text _ _ A) as (s & e & I & EI & T). rewrite T. eexists. split; [reflexivity|].
    destruct (match_error_ok e EI) as (EL & E0). split; [|split; [|split; [discriminate|discriminate]]].
    + intros S. specialize (S l s E I). unfold zlen in *. rewrite firstn_length, !app_length. change (length (str "Match [")) with 7%nat. change (length (str "] ")) with 2%nat. lia.
    + intros N X. apply in_firstn in X. rewrite !in_app_iff in X. destruct X as [X|[X|[X|X]]]; [vm_compute in X; intuition discriminate|exact (N l s E I X)|vm_compute in X; intuition discriminate|auto].
Qed.

(** ** From the line to the status *)
Lemma piece_chars d v l : pieces d v l -> forall t x, In t l -> In x t -> In x v.
Proof.
  induction 1 as [s H|sep t H N D|sep t c s' l H N D C P IH]; intros t' x I X.
  - destruct I.
  - destruct I as [<-|[]]. rewrite in_app_iff. auto.
  - rewrite !in_app_iff. destruct I as [<-|I]; [auto|]. right. right. right. eapply IH; eauto.
Qed.
Lemma item_chars d v r : items d v r -> forall l s x, r = Some l -> In s l -> In x s -> exists w, v = Some w /\ In x w.
Proof.
  intros H l s x -> I X. unfold items in H. destruct v as [v|]; [|discriminate]. destruct H as (ps & P & _ & F). exists v. split; [reflexivity|].
  assert (Q : exists t, In t ps /\ trimmed t s).
  { clear P X. induction F as [|t u ps l T F IH]; [destruct I|]. destruct I as [->|I]; [exists t; split; [left; reflexivity|exact T]|].
    destruct (IH I) as (t' & I' & T'). exists t'. split; [right; exact I'|exact T']. }
  destruct Q as (t & It & n & -> & _). eapply piece_chars; [exact P|exact It|]. rewrite in_app_iff. auto.
Qed.
Lemma told_no0 k its tail c : carried k its tail -> told k its c -> no0 c.
Proof.
  intros (P & _) (_ & _ & _ & _ & _ & _ & _ & _ & _ & (v & V & M) & _) l s E I X. destruct (item_chars _ _ _ M l s 0 E I X) as (w & -> & W).
  assert (Q := line_plain k its tail _ _ P V). destruct Q as (_ & Q). contradiction.
Qed.
Lemma told_udpencap k its c : told k its c -> 0 <= c_udpencap c < 65536.
Proof. intros (_ & _ & _ & _ & _ & _ & _ & _ & _ & _ & (v & _ & ->)). apply Z.mod_pos_bound. lia. Qed.
Lemma told_action k its c : told k its c -> c_action c = Some (str (action_of k)).
Proof. intros (A & _). exact A. Qed.

Lemma set_ends h shm mem tr1 w1 now its tail s rest :
  libc_ok (h_lib h) -> exec h anything (start h shm mem) tr1 w1 -> stands (h_lib h) (t_set (w_st w1)) now ->
  Forall (item_ok flowSetOpts) its -> carried FlowSet its tail -> sends FlowSet (line its tail) = Ok (Some s) ->
  exists c, readFlowCmd (s ++ rest) = Ok (Some (c, rest)) /\ told FlowSet its c /\
    forall ev tr2 w2 m junk, exec h anything w1 ((Command c, ev) :: tr2) w2 -> no_command tr2 -> w_flow w2 = Ret (Reply m) -> short_matches c ->
    exists t st now', replyText c m = Ok t /\ talkEnd junk (firstn 64 (written t)) = Ok (t ++ [10], st) /\ stands (h_lib h) (t_set (w_st w2)) now' /\
      ((st = 0 /\ set_accepted c (w_st w2) now now') \/ (st = -1 /\ set_refused c now now')).
Proof.
  intros HL X ST F C S. destruct (client_told FlowSet its tail s rest F C S) as (c & R & T & N). exists c. split; [exact R|]. split; [exact T|].
  intros ev tr2 w2 m junk X2 NC FL SM. assert (A := told_action _ _ _ T). cbn [action_of] in A.
  destruct (answered h shm mem tr1 w1 c ev tr2 w2 m now HL (told_udpencap _ _ _ T) X ST X2 NC FL) as (now' & ST' & A1 & A2 & _).
  destruct (reply_text c m) as (t & RT & L & Z & P); [eapply exec_reply; eauto; left; exact A|].
  exists t, (if prefix (str "OK") t then 0 else -1), now'. split; [exact RT|]. split; [apply talk_short; [apply Z; eapply told_no0; eauto|auto]|]. split; [exact ST'|].
  destruct (prefix (str "OK") t).
  - left. split; [reflexivity|]. apply A1; [exact A|]. apply P. reflexivity.
  - right. split; [reflexivity|]. apply A2; [exact A|]. intros E. apply P in E. discriminate.
Qed.
Lemma delete_ends h shm mem tr1 w1 now its tail s rest :
  libc_ok (h_lib h) -> exec h anything (start h shm mem) tr1 w1 -> stands (h_lib h) (t_set (w_st w1)) now ->
  Forall (item_ok nameOpts) its -> carried FlowDelete its tail -> sends FlowDelete (line its tail) = Ok (Some s) ->
  exists c, readFlowCmd (s ++ rest) = Ok (Some (c, rest)) /\ told FlowDelete its c /\
    forall ev tr2 w2 m junk, exec h anything w1 ((Command c, ev) :: tr2) w2 -> no_command tr2 -> w_flow w2 = Ret (Reply m) ->
    exists now', m = "OK"%string /\ talkEnd junk (firstn 64 (written (str m))) = Ok (str m ++ [10], 0) /\ stands (h_lib h) (t_set (w_st w2)) now' /\ deleted c now now'.
Proof.
  intros HL X ST F C S. destruct (client_told FlowDelete its tail s rest F C S) as (c & R & T & N). exists c. split; [exact R|]. split; [exact T|].
  intros ev tr2 w2 m junk X2 NC FL. assert (A := told_action _ _ _ T). cbn [action_of] in A.
  destruct (answered h shm mem tr1 w1 c ev tr2 w2 m now HL (told_udpencap _ _ _ T) X ST X2 NC FL) as (now' & ST' & _ & _ & A3 & _).
  assert (M : m = "OK"%string). { eapply delete_reply; eauto. apply N. right. left. reflexivity. } exists now'. split; [exact M|].
  split; [|split; [exact ST'|auto]]. subst m. rewrite talk_short; [reflexivity|vm_compute; intuition discriminate|vm_compute; discriminate].
Qed.

(** ** Trace flows *)
Lemma trace_delete_ends L P w c w' a junk : c_action c = Some (str "trace-delete") -> c_name c <> None ->
  tstep L P w (TRequest c) = Some (TCont w' (Answer a)) \/ tstep L P w TFree = Some (TCont w' (Answer a)) ->
  talkEnd junk (firstn 64 a) = Ok (str "OK" ++ [10], 0).
Proof.
  intros A N H. assert (E : a = written (str "OK")).
  { destruct H as [H|H]; cbn [tstep] in H.
    - destruct (x_free w =? 0); [|discriminate]. unfold traceRequest in H. rewrite A in H.
      change (streq (str "trace-delete") (str "trace-set")) with false in H. cbv iota in H. rewrite streq_refl in H.
      destruct (c_name c) as [n|]; [|destruct N; reflexivity]. destruct (flowDelete (x_set w) n) as [[f|] set]; inversion H. reflexivity.
    - destruct (x_free w =? 0); [discriminate|]. destruct (nameAt w (x_free w)); inversion H. reflexivity. }
  rewrite E, talk_short; [reflexivity|vm_compute; intuition discriminate|vm_compute; discriminate].
Qed.
Lemma trace_set_ends L P may tr w its tail s rest : texec L P may tr w ->
  Forall (item_ok traceSetOpts) its -> carried TraceSet its tail -> sends TraceSet (line its tail) = Ok (Some s) ->
  exists c n, readFlowCmd (s ++ rest) = Ok (Some (c, rest)) /\ told TraceSet its c /\ c_name c = Some n /\
    forall w' ev, tstep L P w (TRequest c) = Some (TCont w' ev) ->
      (ev = NoAnswer /\ Trace_Spec.asked (tr ++ [(TRequest c, ev)]) n (Some c) /\ forall junk, talkEnd junk [] = Ok ([], -1)) \/
      (exists m t, ev = Answer (written (str m)) /\ x_set w' = x_set w /\ replyText c m = Ok t /\
         forall junk, short_matches c -> talkEnd junk (firstn 64 (written t)) = Ok (t ++ [10], -1)).
Proof.
  intros X F C S. destruct (client_told TraceSet its tail s rest F C S) as (c & R & T & N).
  destruct (c_name c) as [n|] eqn:E; [|destruct N; [right; right; left; reflexivity|reflexivity]]. exists c, n. split; [exact R|]. split; [exact T|]. split; [exact E|].
  intros w' ev H. assert (A := told_action _ _ _ T). cbn [action_of] in A. cbn [tstep] in H. destruct (x_free w =? 0); [|discriminate].
  unfold traceRequest in H. rewrite A in H. rewrite streq_refl, E in H.
  destruct (flowDefine L (x_set w) (cmdArgs c n (zlen (x_names w ++ [Some n])))) as [[[e|] set]| | |] eqn:D; try discriminate; inversion H; subst w' ev.
  - right. assert (DE := define_errors _ _ _ _ _ D).
    assert (SET : set = x_set w). { unfold flowDefine in D. destruct (makeFlow _ _) as [[x|f]| | |]; cbn [obind] in D; try discriminate; [inversion D; reflexivity|].
      destruct (sortFlows L (insertFlow f (x_set w))); cbn [obind] in D; discriminate. }
    destruct (reply_text c e DE) as (t & RT & L1 & Z & P1). exists e, t. split; [reflexivity|]. split; [exact SET|]. split; [exact RT|].
    intros junk SM. rewrite talk_short; [|apply Z; eapply told_no0; eauto|auto]. destruct (prefix (str "OK") t); [|reflexivity].
    exfalso. destruct P1 as (P1 & _). specialize (P1 eq_refl). subst e.
    assert (NO : flowDefine L (x_set w) (cmdArgs c n (zlen (x_names w ++ [Some n]))) <> Ok (Some "OK"%string, set)) by apply define_not_ok. contradiction.
  - left. split; [reflexivity|]. split; [apply asked_set; auto|]. intros junk. reflexivity.
Qed.
