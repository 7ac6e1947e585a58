(** Threads do not wait for each other for ever (C91). *)
From Verif Require Import Base Lists Locks_Model Locks_Spec.

(** ** The order of locks *)
Definition level (l : lock) : Z :=
  match l with Entry _ => 1 | Bucket _ => 2 | Pool _ => 3 | Flows _ => 4 | LbList => 5 | Trace => 6 end.
Definition held := list (lock * bool).
Definition under (n : Z) (h : held) : bool := forallb (fun x => level (fst x) <? n) h.
Definition shared_flows (h : held) : bool := forallb (fun x => match x with (Flows _, false) => true | _ => false end) h.
Definition client_ok (c : client) (h : held) : bool :=
  match c with TraceReads => true | TraceLeaves => match h with [] => true | _ => false end | FlowReads => shared_flows h end.
(** The locks held after the operations; None: not in the order, or one let go that is not held *)
Fixpoint follows (h : held) (l : list lop) : option held :=
  match l with
  | [] => Some h
  | Acq k :: r => if under (level k) h then follows ((k, true) :: h) r else None
  | Shared k :: r => if under (level k) h then follows ((k, false) :: h) r else None
  | Rel k :: r => if existsb (fun x => lock_eqb (fst x) k) h then follows (drop k h) r else None
  | Client c :: r => if client_ok c h then follows h r else None
  end.
Lemma follows_app h x y : follows h (x ++ y) = match follows h x with Some h' => follows h' y | None => None end.
Proof.
  revert h. induction x as [|[k|k|k|c] x IH]; intros h; cbn [app follows]; [reflexivity|..]; rewrite ?IH; try (destruct (under _ _); reflexivity).
  - destruct (existsb _ h); reflexivity.
  - destruct (client_ok c h); reflexivity.
Qed.
Lemma lock_eqb_refl l : lock_eqb l l = true.
Proof. destruct l as [f|b|p|t| |]; cbn; rewrite ?Z.eqb_refl; auto; [destruct p|destruct t]; reflexivity. Qed.
Lemma lock_eqb_eq k l : lock_eqb k l = true -> k = l.
Proof.
  destruct k as [f|b|p|t| |], l as [g|c|q|u| |]; cbn; intros E; try discriminate; auto.
  - apply Z.eqb_eq in E. congruence.
  - apply Z.eqb_eq in E. congruence.
  - destruct p, q; try discriminate; reflexivity.
  - apply Bool.eqb_prop in E. congruence.
Qed.

(** ** Every behaviour keeps the order and lets go what it takes. *)
Definition triple (h : held) (b : beh) (h' : held) : Prop := forall ops, runs b ops -> follows h ops = Some h'.
Lemma t_skip h : triple h Skip h.
Proof. intros ops R. inversion R. reflexivity. Qed.
Lemma t_seq h a h1 b h2 : triple h a h1 -> triple h1 b h2 -> triple h (Seq a b) h2.
Proof. intros A B ops R. inversion R; subst. rewrite follows_app, (A _ H1). auto. Qed.
Lemma t_alt h a b h' : triple h a h' -> triple h b h' -> triple h (Alt a b) h'.
Proof. intros A B ops R. inversion R; subst; auto. Qed.
Lemma t_star h a : triple h a h -> triple h (Star a) h.
Proof.
  intros A ops R. remember (Star a) as s eqn:E. induction R; try discriminate; [reflexivity|]. injection E as ->. rewrite follows_app, (A _ R1). apply IHR2. reflexivity.
Qed.
Lemma t_any h f h' : (forall z, triple h (f z) h') -> triple h (Any f) h'.
Proof. intros A ops R. inversion R; subst. eapply A. eauto. Qed.
Lemma t_acq h l : under (level l) h = true -> triple h (lck l) ((l, true) :: h).
Proof. intros U ops R. inversion R; subst. cbn [follows]. rewrite U. reflexivity. Qed.
Lemma t_shared h l : under (level l) h = true -> triple h (Op (Shared l)) ((l, false) :: h).
Proof. intros U ops R. inversion R; subst. cbn [follows]. rewrite U. reflexivity. Qed.
Lemma t_unl h l m : triple ((l, m) :: h) (unl l) h.
Proof. intros ops R. inversion R; subst. cbn [follows existsb drop fst]. rewrite lock_eqb_refl. reflexivity. Qed.
Lemma t_client h c : client_ok c h = true -> triple h (Op (Client c)) h.
Proof. intros U ops R. inversion R; subst. cbn [follows]. rewrite U. reflexivity. Qed.
Lemma under_le n m h : n <= m -> under n h = true -> under m h = true.
Proof. intros L. unfold under. rewrite !forallb_forall. intros U x I. specialize (U x I). apply Z.ltb_lt in U. apply Z.ltb_lt. lia. Qed.

Create HintDb tri.
Ltac und := solve [first [assumption | reflexivity | cbn [under forallb level fst]; repeat (apply andb_true_intro; split); first [reflexivity | assumption | eapply under_le; [|eassumption]; cbn; lia] | eapply under_le; [|eassumption]; cbn; lia]].
Ltac tri1 :=
  match goal with
  | |- triple _ (Seq _ _) _ => eapply t_seq
  | |- triple _ (Alt _ _) _ => apply t_alt
  | |- triple _ (maybe _) _ => apply t_alt
  | |- triple _ (Any _) _ => apply t_any; intros
  | |- triple _ Skip _ => apply t_skip
  | |- triple _ (lck _) _ => apply t_acq; und
  | |- triple _ (unl _) _ => apply t_unl
  | |- triple _ (Op (Shared _)) _ => apply t_shared; und
  | |- triple _ (Op (Client _)) _ => apply t_client; solve [reflexivity | assumption]
  end.
Ltac known := solve [eauto with tri | match goal with |- triple _ _ _ => eauto with tri end].
Ltac tri := repeat first [tri1 | progress (match goal with |- triple _ (Star _) _ => apply t_star end) ].

Lemma ok_alloc h p : under 3 h = true -> triple h (itemAllocate p) h.
Proof. intros U. unfold itemAllocate. tri. Qed.
Lemma ok_free h p : under 3 h = true -> triple h (itemFree p) h.
Proof. intros U. unfold itemFree. tri. Qed.
Ltac pool := first [apply ok_alloc; und | apply ok_free; und].
Lemma ok_withnext h p : under 3 h = true -> triple h (itemAllocateWithNext p) h.
Proof. intros U. unfold itemAllocateWithNext. eapply t_seq; [pool|]. apply t_alt; [apply t_skip|pool]. Qed.
Ltac step0 := first [pool | apply ok_withnext; und | tri1 | apply t_star].
Lemma ok_raNew h : under 3 h = true -> triple h raNew h.
Proof. intros U. unfold raNew. repeat step0. Qed.
Lemma ok_raDestroy h : under 3 h = true -> triple h raDestroy h.
Proof. intros U. unfold raDestroy. repeat step0. Qed.
Lemma ok_raHandle h : under 3 h = true -> triple h raHandleFragment h.
Proof. intros U. unfold raHandleFragment. repeat step0. Qed.
Lemma ok_tracef h : under 6 h = true -> triple h tracef h.
Proof. intros U. unfold tracef. repeat step0. Qed.
Lemma ok_trace h : under 6 h = true -> triple h trace h.
Proof. intros U. unfold trace. apply t_alt; [apply t_skip|apply ok_tracef; und]. Qed.
Lemma ok_logp h : under 6 h = true -> triple h logp h.
Proof. intros U. unfold logp. repeat step0. Qed.
Ltac step1 := first [apply ok_raNew; und | apply ok_raDestroy; und | apply ok_raHandle; und | apply ok_tracef; und | apply ok_trace; und | apply ok_logp; und | step0].
Lemma ok_unlock h : under 3 h = true -> triple h fragDataUnlock h.
Proof. intros U. unfold fragDataUnlock. repeat step1. Qed.
Ltac step2 := first [apply ok_unlock; und | step1].
Lemma ok_gc h : under 3 h = true -> triple h bucketGC h.
Proof. intros U. unfold bucketGC, bucketPoolFree. repeat step2. Qed.
Lemma ok_bucket h b : under 2 h = true -> triple h (ctLookupBucket b) ((Bucket b, true) :: h).
Proof. intros U. unfold ctLookupBucket. eapply t_seq; [step2|]. eapply t_seq; [repeat step2|]. apply t_alt; [apply t_skip|apply ok_gc; und]. Qed.
Lemma ok_ctLookup h b : under 2 h = true -> triple h (ctLookup b) h.
Proof. intros U. unfold ctLookup. eapply t_seq; [apply ok_bucket; und|]. repeat step2. Qed.
Lemma ok_ctInsert h b : under 2 h = true -> triple h (ctInsert b) h.
Proof. intros U. unfold ctInsert, bucketPoolAllocate. apply t_alt; [apply t_skip|]. eapply t_seq; [apply ok_bucket; und|]. repeat step2. Qed.
Lemma ok_ctRemove h b : under 2 h = true -> triple h (ctRemove b) h.
Proof. intros U. unfold ctRemove, bucketPoolFree. eapply t_seq; [apply ok_bucket; und|]. repeat step2. Qed.
Lemma ok_ctStats h : under 2 h = true -> triple h ctStats h.
Proof. intros U. unfold ctStats. apply t_star. apply t_any. intros b. eapply t_seq; [step2|]. eapply t_seq; [apply ok_gc; und|]. step2. Qed.
Ltac step3 := first [apply ok_ctLookup; und | apply ok_ctInsert; und | apply ok_ctRemove; und | apply ok_ctStats; und | step2].
Lemma ok_lookup h b : under 2 h = true -> triple h (fragDataLookup b) h.
Proof. intros U. unfold fragDataLookup. repeat step3. Qed.
Lemma ok_insert h b : under 1 h = true -> triple h (fragInsertFirst b) h.
Proof. intros U. unfold fragInsertFirst. eapply t_seq; [apply ok_lookup; und|]. repeat step3. Qed.
Lemma ok_get h b : under 1 h = true -> triple h (fragGetValue b) h.
Proof. intros U. unfold fragGetValue. repeat step3. Qed.
Lemma ok_store h b : under 1 h = true -> triple h (fragGetValueOrStore b) h.
Proof. intros U. unfold fragGetValueOrStore. eapply t_seq; [apply ok_lookup; und|]. repeat step3. Qed.
Lemma ok_inject h : under 6 h = true -> triple h injectFrag h.
Proof. intros U. unfold injectFrag. repeat step3. Qed.
Lemma ok_first h b : under 1 h = true -> triple h (handleFirstFragment b) h.
Proof. intros U. unfold handleFirstFragment. eapply t_seq; [apply ok_insert; und|]. repeat first [apply ok_inject; und | step3]. Qed.
Ltac step4 := first [apply ok_store; und | apply ok_first; und | apply ok_get; und | step3].
Lemma ok_define h t : under 4 h = true -> triple h (flowDefine t) h.
Proof. intros U. unfold flowDefine. repeat step4. Qed.
Lemma ok_delete h t : under 4 h = true -> triple h (flowDelete t) h.
Proof. intros U. unfold flowDelete. repeat step4. Qed.
Lemma ok_name h t : under 4 h = true -> triple h (flowLookupName t) h.
Proof. intros U. unfold flowLookupName. repeat step4. Qed.
Lemma ok_flow h t : under 4 h = true -> triple h (flowLookup t) h.
Proof. intros U. unfold flowLookup. repeat step4. Qed.
Lemma ok_print t : triple [] (flowSetPrint t) [].
Proof. unfold flowSetPrint. repeat step4. Qed.
Lemma ok_names t : triple [] (flowSetPrintNames t) [].
Proof. unfold flowSetPrintNames. repeat step4. Qed.
Lemma ok_release h : under 5 h = true -> triple h loadbalancerRelease h.
Proof. intros U. unfold loadbalancerRelease. repeat step4. Qed.
Lemma ok_create h : under 5 h = true -> triple h loadbalancerFindOrCreate h.
Proof. intros U. unfold loadbalancerFindOrCreate. repeat step4. Qed.
Lemma ok_reply : triple [] writeReply [].
Proof. unfold writeReply. repeat step4. Qed.
Ltac step5 := first [apply ok_define; und | apply ok_delete; und | apply ok_name; und | apply ok_flow; und | apply ok_print | apply ok_names | apply ok_release; und | apply ok_create; und | apply ok_reply | step4].
Lemma ok_body c : triple [] (body c) [].
Proof.
  destruct c; cbn [body].
  - unfold flowlbPacket. repeat step5.
  - unfold lbPacket. repeat step5.
  - repeat step5.
  - unfold fragGetStats. repeat step5.
  - unfold flowRequest, cmdSet, cmdSetDefine, cmdDelete, traceHandleFlowCmd. repeat step5.
  - unfold traceSession. repeat step5.
Qed.

(** ** All executions *)
Lemma zupd_cases {A} (l : list A) p x n y : znth (zupd l p x) n = Some y -> n = p /\ y = x \/ n <> p /\ znth l n = Some y.
Proof.
  intros X. destruct (Z.eq_dec p n) as [->|NE]; [|rewrite znth_zupd_neq in X by auto; auto].
  pose proof (znth_some_range _ _ _ _ X) as R. unfold zlen in R. rewrite zupd_length in R. rewrite znth_zupd_eq in X by exact R. left. split; [auto|congruence].
Qed.
Lemma zupd_in {A} (l : list A) p x y : In y (zupd l p x) -> y = x \/ In y l.
Proof. intros I. destruct (In_znth _ _ _ I) as (n & E). destruct (zupd_cases _ _ _ _ _ E) as [(_ & ->)|(_ & E')]; [auto|right; eapply znth_In; eauto]. Qed.
Definition fine (t : thread) : Prop := follows (th_held t) (th_ops t) = Some [].
Lemma fine_step t o r : th_ops t = o :: r -> fine t -> fine (after t o r).
Proof.
  unfold fine. intros E. rewrite E. destruct o as [k|k|k|c]; cbn [follows after th_ops th_held].
  - destruct (under _ _); [auto|discriminate].
  - destruct (under _ _); [auto|discriminate].
  - destruct (existsb _ _); [auto|discriminate].
  - destruct (client_ok _ _); [auto|discriminate].
Qed.
Lemma fine_idle t : fine t -> th_ops t = [] -> th_held t = [].
Proof. unfold fine. intros F E. rewrite E in F. cbn in F. congruence. Qed.
Lemma step_in first ready ts i ts' : tstep first ready ts i = Some ts' -> exists t o r, znth ts i = Some t /\ th_ops t = o :: r /\ free first ready ts o = true /\ ts' = zupd ts i (after t o r).
Proof.
  unfold tstep. destruct (znth ts i) as [t|] eqn:E; [|discriminate]. destruct (th_ops t) as [|o r] eqn:EO; [discriminate|]. destruct (free first ready ts o) eqn:EF; [|discriminate].
  intros X. injection X as <-. exists t, o, r. auto.
Qed.
Lemma all_fine first may n ts : texec first may n ts -> forall t, In t ts -> fine t.
Proof.
  intros X. induction X as [|ts i t c ops X IH E EO M R|ready ts i ts' X IH ST]; intros u I.
  - apply repeat_spec in I. subst u. reflexivity.
  - destruct (zupd_in _ _ _ _ I) as [->|I']; [|auto]. unfold fine. cbn [th_ops th_held]. rewrite (fine_idle t (IH t (znth_In _ _ _ _ E)) EO). apply (ok_body c ops R).
  - destruct (step_in _ _ _ _ _ ST) as (t & o & r & E & EO & _ & ->). destruct (zupd_in _ _ _ _ I) as [->|I']; [|auto]. eapply fine_step; eauto. eapply IH. eapply znth_In; eauto.
Qed.
Lemma steps_fine first ready ts ts' : steps first ready ts ts' -> (forall t, In t ts -> fine t) -> forall t, In t ts' -> fine t.
Proof.
  intros X F. induction X as [|ts1 i ts2 X IH ST]; [exact F|]. intros u I. destruct (step_in _ _ _ _ _ ST) as (t & o & r & E & EO & _ & ->).
  destruct (zupd_in _ _ _ _ I) as [->|I']; [|auto]. eapply fine_step; eauto. eapply IH. eapply znth_In; eauto.
Qed.

(** A thread that waits finds one that can go on. *)
Definition head_client (ts : list thread) (ready : client -> bool) : Prop :=
  forall t c r, In t ts -> th_ops t = Client c :: r -> ready c = true \/ c = FlowReads /\ forall u tr, In u ts -> wants u (Flows tr) = false.
Lemma can_step first ready ts t o r : In t ts -> th_ops t = o :: r -> free first ready ts o = true -> exists i ts', tstep first ready ts i = Some ts'.
Proof. intros I E F. destruct (In_znth _ _ _ I) as (i & EI). exists i. eexists. unfold tstep. rewrite EI, E, F. reflexivity. Qed.
Lemma under_in n h x : under n h = true -> In x h -> level (fst x) < n.
Proof. unfold under. rewrite forallb_forall. intros U I. apply Z.ltb_lt, U, I. Qed.
Lemma level_max l : level l <= 6.
Proof. destruct l; cbn; lia. Qed.
Lemma unblock first ready ts : (forall t, In t ts -> fine t) -> head_client ts ready ->
  forall n t l r, (Z.to_nat (6 - level l) < n)%nat -> In t ts -> th_ops t = Acq l :: r \/ th_ops t = Shared l :: r -> exists i ts', tstep first ready ts i = Some ts'.
Proof.
  intros F HC. induction n as [|n IH]; intros t l r LE I E; [lia|]. pose proof (level_max l) as LM.
  (* one that holds the lock *)
  assert (HOLD : forall u m, In u ts -> In (l, m) (th_held u) -> (exists i ts', tstep first ready ts i = Some ts') \/ exists r', th_ops u = Client FlowReads :: r' /\ m = false /\ exists tr, l = Flows tr).
  { intros u m IU IL. pose proof (F u IU) as FU. unfold fine in FU. destruct (th_ops u) as [|[k|k|k|c] r'] eqn:EU; cbn [follows] in FU.
    - injection FU as FU. rewrite FU in IL. destruct IL.
    - destruct (under (level k) (th_held u)) eqn:U; [|discriminate]. pose proof (under_in _ _ _ U IL) as LT. cbn [fst] in LT. left. apply (IH u k r'); auto. pose proof (level_max k). lia.
    - destruct (under (level k) (th_held u)) eqn:U; [|discriminate]. pose proof (under_in _ _ _ U IL) as LT. cbn [fst] in LT. left. apply (IH u k r'); auto. pose proof (level_max k). lia.
    - left. eapply can_step; eauto.
    - destruct (HC u c r' IU EU) as [R|(-> & NW)]; [left; eapply can_step; eauto|]. right. exists r'. split; [reflexivity|].
      destruct (client_ok FlowReads (th_held u)) eqn:CO; [|discriminate]. cbn [client_ok] in CO. unfold shared_flows in CO. rewrite forallb_forall in CO. specialize (CO _ IL). cbn in CO.
      destruct l; try discriminate. destruct m; [discriminate|]. eauto. }
  (* one that waits to take it exclusively *)
  assert (WANT : forall u r', In u ts -> th_ops u = Acq l :: r' -> exists i ts', tstep first ready ts i = Some ts').
  { intros u r' IU EU. destruct (existsb (fun t => holds t l) ts) eqn:EX.
    - apply existsb_exists in EX. destruct EX as (v & IV & HV). unfold holds in HV. apply existsb_exists in HV. destruct HV as ((k & m) & IK & EK). apply lock_eqb_eq in EK. cbn [fst] in EK. subst k.
      destruct (HOLD v m IV IK) as [S|(r2 & EV & -> & tr & ->)]; [exact S|]. destruct (HC v FlowReads r2 IV EV) as [R|(_ & NW)]; [eapply can_step; eauto|].
      specialize (NW u tr IU). unfold wants in NW. rewrite EU, lock_eqb_refl in NW. discriminate.
    - eapply can_step; eauto. cbn [free]. rewrite EX. reflexivity. }
  destruct E as [E|E]; [eauto|].
  destruct (existsb (fun t => holds_alone t l || (first && wants t l)) ts) eqn:EX; [|eapply can_step; eauto; cbn [free]; rewrite EX; reflexivity].
  apply existsb_exists in EX. destruct EX as (u & IU & HU). apply Bool.orb_true_iff in HU. destruct HU as [HU|HU].
  - unfold holds_alone in HU. apply existsb_exists in HU. destruct HU as ((k & m) & IK & EK). apply Bool.andb_true_iff in EK. cbn [fst snd] in EK. destruct EK as (EK & ->). apply lock_eqb_eq in EK. subst k.
    destruct (HOLD u true IU IK) as [S|(r2 & EV & X & _)]; [exact S|discriminate].
  - apply Bool.andb_true_iff in HU. destruct HU as (_ & HU). unfold wants in HU. destruct (th_ops u) as [|[k| | |] r2] eqn:EU; try discriminate. apply lock_eqb_eq in HU. subst k. eauto.
Qed.
Lemma moves first ready ts t o r : (forall t, In t ts -> fine t) -> head_client ts ready -> In t ts -> th_ops t = o :: r ->
  (forall c, o = Client c -> ready c = true) -> exists i ts', tstep first ready ts i = Some ts'.
Proof.
  intros F HC I E NC. destruct o as [l|l|l|c].
  - eapply (unblock first ready ts F HC (S (Z.to_nat (6 - level l))) t l r); auto.
  - eapply (unblock first ready ts F HC (S (Z.to_nat (6 - level l))) t l r); auto.
  - eapply can_step; eauto.
  - eapply can_step; eauto.
Qed.

Lemma no_deadlock first may n ts ready : texec first may n ts -> (forall t c r, In t ts -> th_ops t = Client c :: r -> ready c = true) ->
  idle ts \/ exists i ts', tstep first ready ts i = Some ts'.
Proof.
  intros X R. pose proof (all_fine _ _ _ _ X) as F.
  assert (D : idle ts \/ exists t, In t ts /\ th_ops t <> []).
  { clear. induction ts as [|t ts IH]; [left; intros t []|]. destruct (th_ops t) eqn:E; [|right; exists t; split; [left; reflexivity|congruence]].
    destruct IH as [ID|(u & I & N)]; [left; intros u [<-|I]; auto|right; exists u; split; [right; auto|auto]]. }
  destruct D as [D|(t & I & N)]; [auto|]. right. destruct (th_ops t) as [|o r] eqn:E; [congruence|].
  eapply moves; eauto; [intros u c r2 IU EU; left; eauto|]. intros c ->. eauto.
Qed.

(** All calls end. *)
Lemma size_upd ts i t t' : znth ts i = Some t -> (left_of (zupd ts i t') + length (th_ops t) = left_of ts + length (th_ops t'))%nat.
Proof.
  unfold znth, zupd. destruct (i <? 0); [discriminate|]. generalize (Z.to_nat i) as n. intros n. revert n. induction ts as [|u ts IH]; intros [|n] E; cbn in *; try discriminate.
  - injection E as ->. lia.
  - specialize (IH _ E). unfold left_of in *. cbn [fold_right] in *. lia.
Qed.
Lemma size_step first ready ts i ts' : tstep first ready ts i = Some ts' -> (left_of ts = S (left_of ts'))%nat.
Proof.
  intros ST. destruct (step_in _ _ _ _ _ ST) as (t & o & r & E & EO & _ & ->). pose proof (size_upd ts i t (after t o r) E) as S. rewrite EO in S.
  assert (L : length (th_ops (after t o r)) = length r) by (destruct o; reflexivity). rewrite L in S. cbn [length] in S. lia.
Qed.
Lemma ends first may n ts ts1 : texec first may n ts -> steps first (fun _ => true) ts ts1 ->
  texec first may n ts1 /\ (idle ts1 \/ exists i ts2, tstep first (fun _ => true) ts1 i = Some ts2) /\
  forall i ts2, tstep first (fun _ => true) ts1 i = Some ts2 -> left_of ts1 = S (left_of ts2).
Proof.
  intros X S. assert (X1 : texec first may n ts1) by (clear -X S; induction S; [auto|eapply tx_step; eauto]).
  split; [exact X1|]. split; [|intros i ts2 ST; eapply size_step; eauto]. eapply no_deadlock; eauto.
Qed.
Lemma steps_trans first ready a b c : steps first ready a b -> steps first ready b c -> steps first ready a c.
Proof. intros X Y. induction Y; [auto|eapply s_step; eauto]. Qed.
Lemma all_end first may n ts : texec first may n ts -> exists ts', steps first (fun _ => true) ts ts' /\ idle ts'.
Proof.
  remember (left_of ts) as k. revert ts Heqk. induction k as [k IH] using lt_wf_ind. intros ts -> X.
  destruct (no_deadlock first may n ts (fun _ => true) X) as [ID|(i & ts2 & ST)]; [auto|exists ts; split; [constructor|auto]|].
  pose proof (size_step _ _ _ _ _ ST) as SS. destruct (IH (left_of ts2)) with (ts := ts2) as (ts' & S & ID); [lia|reflexivity|eapply tx_step; eauto|].
  exists ts'. split; [|auto]. eapply steps_trans; [eapply s_step; [constructor|eauto]|auto].
Qed.

(** Locks are held by one thread, or shared. *)
Definition apart (ts : list thread) : Prop :=
  forall i j t u l m, znth ts i = Some t -> znth ts j = Some u -> In (l, true) (th_held t) -> In (l, m) (th_held u) -> i = j.
Lemma drop_in l h x : In x (drop l h) -> In x h.
Proof. induction h as [|y h IH]; cbn; [auto|]. destruct (lock_eqb (fst y) l); [auto|]. intros [->|I]; auto. Qed.
Lemma after_in t o r x : In x (th_held (after t o r)) -> In x (th_held t) \/ o = Acq (fst x) /\ snd x = true \/ o = Shared (fst x) /\ snd x = false.
Proof.
  destruct o as [k|k|k|c]; cbn [after th_held].
  - intros [<-|I]; auto.
  - intros [<-|I]; auto.
  - intros I. left. eapply drop_in; eauto.
  - auto.
Qed.
Lemma all_apart first may n ts : texec first may n ts -> apart ts.
Proof.
  intros X. induction X as [|ts i0 t0 c ops X IH E EO M R|ready ts i0 ts' X IH ST]; intros i j t u l m EI EJ HI HJ.
  - apply znth_In in EI. apply repeat_spec in EI. subst t. destruct HI.
  - pose proof (all_fine _ _ _ _ X) as F. assert (N0 : th_held t0 = []) by (apply fine_idle; [apply F; eapply znth_In; eauto|exact EO]).
    destruct (zupd_cases _ _ _ _ _ EI) as [(-> & ->)|(NI & EI')]; [cbn [th_held] in HI; rewrite N0 in HI; destruct HI|].
    destruct (zupd_cases _ _ _ _ _ EJ) as [(-> & ->)|(NJ & EJ')]; [cbn [th_held] in HJ; rewrite N0 in HJ; destruct HJ|]. eapply IH; eauto.
  - destruct (step_in _ _ _ _ _ ST) as (t0 & o & r & E & EO & FR & ->).
    assert (HN : forall v k, free first ready ts (Acq k) = true -> In v ts -> forall b, ~ In (k, b) (th_held v)).
    { intros v k FK IV b IB. cbn [free] in FK. apply Bool.negb_true_iff in FK. assert (Y : existsb (fun t => holds t k) ts = true); [|congruence].
      apply existsb_exists. exists v. split; [exact IV|]. unfold holds. apply existsb_exists. exists (k, b). split; [exact IB|]. apply lock_eqb_refl. }
    assert (SN : forall v k, free first ready ts (Shared k) = true -> In v ts -> ~ In (k, true) (th_held v)).
    { intros v k FK IV IB. cbn [free] in FK. apply Bool.negb_true_iff in FK. assert (Y : existsb (fun t => holds_alone t k || (first && wants t k)) ts = true); [|congruence].
      apply existsb_exists. exists v. split; [exact IV|]. apply Bool.orb_true_iff. left. unfold holds_alone. apply existsb_exists. exists (k, true). split; [exact IB|]. cbn [fst snd]. rewrite lock_eqb_refl. reflexivity. }
    destruct (zupd_cases _ _ _ _ _ EI) as [(-> & ->)|(NI & EI')]; destruct (zupd_cases _ _ _ _ _ EJ) as [(-> & ->)|(NJ & EJ')]; auto.
    + destruct (after_in _ _ _ _ HI) as [HI'|[(-> & _)|(-> & X1)]]; [eapply IH; eauto| |discriminate]. exfalso. eapply HN; eauto using znth_In.
    + destruct (after_in _ _ _ _ HJ) as [HJ'|[(-> & X1)|(-> & X1)]]; [eapply IH; eauto| |]; exfalso.
      * cbn [fst] in FR. eapply HN; eauto using znth_In.
      * cbn [fst] in FR. eapply SN; eauto using znth_In.
    + eapply IH; eauto.
Qed.

(** ** Threads with roles *)
Fixpoint all (P : lop -> Prop) (b : beh) : Prop :=
  match b with
  | Skip => True
  | Op o => P o
  | Seq a b => all P a /\ all P b
  | Alt a b => all P a /\ all P b
  | Star a => all P a
  | Any f => forall z, all P (f z)
  end.
Lemma all_runs P b ops : runs b ops -> all P b -> Forall P ops.
Proof. intros R. induction R; cbn [all]; intros A; try (destruct A as (A1 & A2)); auto; apply Forall_app; auto. Qed.
(** Operations of those who do not serve flow requests *)
Definition other (o : lop) : Prop := match o with Acq (Flows _) | Client FlowReads => False | _ => True end.
Lemma body_other c : c <> CFlow -> all other (body c).
Proof. intros N. destruct c; try congruence; cbn; repeat split; intros; cbn; repeat split. Qed.
Lemma roles_other first n ts : texec first roles n ts -> forall i t, znth ts i = Some t -> i <> 0 -> Forall other (th_ops t).
Proof.
  intros X. induction X as [|ts i0 t0 c ops X IH E EO M R|ready ts i0 ts' X IH ST]; intros i t EI NI.
  - apply znth_In in EI. apply repeat_spec in EI. subst t. constructor.
  - destruct (zupd_cases _ _ _ _ _ EI) as [(-> & ->)|(NE & EI')]; [|eauto]. cbn [th_ops]. eapply all_runs; eauto. apply body_other. intros ->. apply NI. exact M.
  - destruct (step_in _ _ _ _ _ ST) as (t0 & o & r & E & EO & _ & ->). destruct (zupd_cases _ _ _ _ _ EI) as [(-> & ->)|(NE & EI')]; [|eauto].
    specialize (IH _ _ E NI). rewrite EO in IH. inversion IH; subst. destruct o; cbn [after th_ops]; auto.
Qed.
Lemma flow_client first n ts ready i t : texec first roles n ts -> ready TraceReads = true -> ready TraceLeaves = true ->
  znth ts i = Some t -> i <> 0 -> th_ops t <> [] -> exists j ts', tstep first ready ts j = Some ts'.
Proof.
  intros X R1 R2 E NI NE. destruct (th_ops t) as [|o r] eqn:EO; [congruence|]. pose proof (roles_other _ _ _ X) as RO. pose proof (all_fine _ _ _ _ X) as F.
  eapply (moves first ready ts t o r F); eauto using znth_In.
  - intros u c r2 IU EU. destruct c; auto. right. split; [reflexivity|]. intros v tr IV. destruct (In_znth _ _ _ IU) as (ju & EJ). destruct (In_znth _ _ _ IV) as (jv & EV).
    assert (ju = 0). { destruct (Z.eq_dec ju 0) as [|NJ]; [auto|]. specialize (RO _ _ EJ NJ). rewrite EU in RO. inversion RO as [|? ? B]. destruct B. } subst ju.
    unfold wants. destruct (Z.eq_dec jv 0) as [->|NJ]; [rewrite EV in EJ; injection EJ as ->; rewrite EU; reflexivity|].
    specialize (RO _ _ EV NJ). destruct (th_ops v) as [|[k| | |] r3]; try reflexivity. inversion RO as [|? ? B]. destruct k; try reflexivity. destruct B.
  - intros c ->. destruct c; auto. specialize (RO _ _ E NI). rewrite EO in RO. inversion RO as [|? ? B]. destruct B.
Qed.
Lemma others_end first n ts ready : texec first roles n ts -> ready TraceReads = true -> ready TraceLeaves = true ->
  exists ts', steps first ready ts ts' /\ forall i t, znth ts' i = Some t -> i <> 0 -> th_ops t = [].
Proof.
  intros X R1 R2. remember (left_of ts) as k. revert ts Heqk X. induction k as [k IH] using lt_wf_ind. intros ts -> X.
  assert (D : (forall i t, znth ts i = Some t -> i <> 0 -> th_ops t = []) \/ exists i t, znth ts i = Some t /\ i <> 0 /\ th_ops t <> []).
  { destruct ts as [|t0 ts]; [left; intros i t E; apply znth_In in E; destruct E|].
    assert (G : (forall t, In t ts -> th_ops t = []) \/ exists t, In t ts /\ th_ops t <> []).
    { clear. induction ts as [|t ts IH]; [left; intros t []|]. destruct (th_ops t) eqn:E; [|right; exists t; split; [left; reflexivity|congruence]].
      destruct IH as [ID|(u & I & N)]; [left; intros u [<-|I]; auto|right; exists u; split; [right; auto|auto]]. }
    assert (S : forall i t, znth ts i = Some t -> znth (t0 :: ts) (i + 1) = Some t /\ i + 1 <> 0).
    { intros i t E. pose proof (znth_some_range _ _ _ _ E) as RG. split; [|lia]. revert E. unfold znth. destruct (Z.ltb_spec i 0); [lia|]. destruct (Z.ltb_spec (i + 1) 0); [lia|].
      rewrite Z2Nat.inj_add by lia. rewrite Nat.add_comm. auto. }
    destruct G as [G|(t & I & N)]; [left|right].
    - intros i t E NI. apply G. pose proof (znth_some_range _ _ _ _ E) as RG. unfold znth in E. destruct (Z.ltb_spec i 0); [lia|]. destruct (Z.to_nat i) as [|m] eqn:EM; [lia|]. cbn in E. eapply nth_error_In; eauto.
    - destruct (In_znth _ _ _ I) as (i & E). exists (i + 1), t. destruct (S i t E). auto. }
  destruct D as [D|(i & t & E & NI & NE)]; [exists ts; split; [constructor|exact D]|].
  destruct (flow_client _ _ _ _ _ _ X R1 R2 E NI NE) as (j & ts2 & ST). pose proof (size_step _ _ _ _ _ ST) as SS.
  destruct (IH (left_of ts2)) with (ts := ts2) as (ts' & S & ID); [lia|reflexivity|eapply tx_step; eauto|].
  exists ts'. split; [|auto]. eapply steps_trans; [eapply s_step; [constructor|eauto]|auto].
Qed.

(** ** Own locks *)
Lemma under_free l h : under (level l) h = true -> existsb (fun x => lock_eqb (fst x) l) h = false.
Proof.
  intros U. destruct (existsb _ h) eqn:E; [|reflexivity]. apply existsb_exists in E. destruct E as (x & I & EQ). apply lock_eqb_eq in EQ. pose proof (under_in _ _ _ U I). subst l. lia.
Qed.
Lemma own first may n ts t : texec first may n ts -> In t ts ->
  match th_ops t with
  | Acq l :: _ | Shared l :: _ => holds t l = false
  | Rel l :: _ => holds t l = true
  | Client FlowReads :: _ => forall l m, In (l, m) (th_held t) -> m = false /\ exists tr, l = Flows tr
  | Client TraceLeaves :: _ | [] => th_held t = []
  | Client TraceReads :: _ => True
  end.
Proof.
  intros X I. pose proof (all_fine _ _ _ _ X t I) as F. unfold fine in F. destruct (th_ops t) as [|[l|l|l|c] r]; cbn [follows] in F.
  - congruence.
  - destruct (under _ _) eqn:U; [|discriminate]. apply under_free; auto.
  - destruct (under _ _) eqn:U; [|discriminate]. apply under_free; auto.
  - destruct (existsb _ _) eqn:E; [exact E|discriminate].
  - destruct (client_ok c (th_held t)) eqn:CO; [|discriminate]. destruct c; cbn [client_ok] in CO; [exact Logic.I| |].
    + destruct (th_held t); [reflexivity|discriminate].
    + intros l m IL. unfold shared_flows in CO. rewrite forallb_forall in CO. specialize (CO _ IL). cbn in CO. destruct l; try discriminate. destruct m; [discriminate|]. eauto.
Qed.

(** ** A trace client that does not read *)
Definition ex_set : list lop :=
  [Client FlowReads; Acq (Flows false); Rel (Flows false); Acq LbList; Acq Trace; Client TraceReads; Rel Trace; Rel LbList; Acq (Flows false); Rel (Flows false); Client FlowReads].
Definition ex_packet : list lop := [Shared (Flows false); Rel (Flows false); Acq LbList; Rel LbList].
Lemma runs_app b x y z : runs b z -> z = x ++ y -> runs b (x ++ y).
Proof. intros R <-. exact R. Qed.
Ltac pick := first [apply r_skip | apply r_op | apply r_stop].
Lemma ex_set_runs : runs (body CFlow) ex_set.
Proof.
  cbn [body]. unfold flowRequest.
  change ex_set with ([] ++ ex_set). apply r_seq; [apply r_left; pick|]. apply r_right.
  change ex_set with ([Client FlowReads] ++ tl ex_set). apply r_seq; [pick|]. do 3 apply r_right. apply r_left. unfold cmdSet.
  change (tl ex_set) with ([Acq (Flows false); Rel (Flows false)] ++ skipn 3 ex_set). apply r_seq; [apply (r_seq _ _ [_] [_]); pick|]. apply r_right.
  change (skipn 3 ex_set) with (firstn 5 (skipn 3 ex_set) ++ skipn 8 ex_set). apply r_seq.
  - apply r_right. apply (r_seq _ _ [Acq LbList] [Acq Trace; Client TraceReads; Rel Trace; Rel LbList]); [pick|]. apply r_right.
    apply (r_seq _ _ [Acq Trace; Client TraceReads; Rel Trace] [Rel LbList]); [|apply r_right; pick].
    apply r_right. apply (r_seq _ _ [Acq Trace] [Client TraceReads; Rel Trace]); [pick|]. apply r_right. apply (r_seq _ _ [Client TraceReads] [Rel Trace]); pick.
  - do 2 apply r_right. apply (r_seq _ _ [] (skipn 8 ex_set)); [apply r_left; pick|]. apply (r_seq _ _ [Acq (Flows false); Rel (Flows false)] [Client FlowReads]).
    + apply r_right. apply (r_seq _ _ [Acq (Flows false)] [Rel (Flows false)]); pick.
    + apply (r_seq _ _ [] [Client FlowReads]); [apply r_left; pick|pick].
Qed.
Lemma ex_packet_runs b : runs (body (CFlowlb b)) ex_packet.
Proof.
  cbn [body]. unfold flowlbPacket. do 3 apply r_right. apply (r_seq _ _ [Shared (Flows false); Rel (Flows false)] [Acq LbList; Rel LbList]); [apply (r_seq _ _ [_] [_]); [pick|apply r_left; pick]|].
  apply (r_seq _ _ [] [Acq LbList; Rel LbList]); [apply r_left; pick|]. apply r_right. apply (r_seq _ _ [] [Acq LbList; Rel LbList]); [apply r_left; pick|]. apply r_right.
  apply (r_seq _ _ [Acq LbList; Rel LbList] []).
  - apply r_right. apply (r_seq _ _ [] [Acq LbList; Rel LbList]); [apply r_left; pick|]. apply (r_seq _ _ [_] [_]); pick.
  - apply r_left. apply r_left. pick.
Qed.
Definition ex_stuck : list thread :=
  [mkT (skipn 5 ex_set) [(Trace, true); (LbList, true)]; mkT [] []; mkT (skipn 2 ex_packet) []].
Lemma ex_reach first : texec first roles 3 ex_stuck.
Proof.
  assert (S0 : texec first roles 3 (repeat (mkT [] []) 3)) by constructor.
  assert (S1 : texec first roles 3 [mkT ex_set []; mkT [] []; mkT [] []]) by (apply (tx_call first roles 3 _ 0 (mkT [] []) CFlow ex_set S0); try reflexivity; apply ex_set_runs).
  assert (S2 : texec first roles 3 [mkT ex_set []; mkT [] []; mkT ex_packet []]) by (apply (tx_call first roles 3 _ 2 (mkT [] []) (CFlowlb 0) ex_packet S1); try reflexivity; [cbn; lia|apply ex_packet_runs]).
  assert (ST : forall ts i ts', texec first roles 3 ts -> tstep first deaf ts i = Some ts' -> texec first roles 3 ts') by (intros; eapply tx_step; eauto).
  eapply (ST _ 0); [eapply (ST _ 0); [eapply (ST _ 0); [eapply (ST _ 0); [eapply (ST _ 0); [eapply (ST _ 2); [eapply (ST _ 2); [exact S2|]|]|]|]|]|]|]; destruct first; reflexivity.
Qed.
Lemma trace_client first : exists ts t, texec first roles 3 ts /\ znth ts 2 = Some t /\ th_ops t <> [] /\ (forall c, ~ In (Client c) (th_ops t)) /\
  forall i, tstep first deaf ts i = None.
Proof.
  exists ex_stuck, (mkT (skipn 2 ex_packet) []). split; [apply ex_reach|]. split; [reflexivity|]. split; [discriminate|]. split; [intros c [E|[E|[]]]; discriminate|].
  intros i. destruct (tstep first deaf ex_stuck i) as [ts'|] eqn:E; [|reflexivity]. exfalso. destruct (step_in _ _ _ _ _ E) as (t & o & r & EI & EO & FR & _).
  assert (C : i = 0 \/ i = 1 \/ i = 2) by (pose proof (znth_some_range _ _ _ _ EI) as RG; unfold zlen in RG; cbn in RG; lia).
  destruct C as [->|[->| ->]]; cbn in EI; injection EI as <-; cbn in EO; try discriminate; injection EO as <- <-; destruct first; discriminate.
Qed.

(** ** A flow client that does not read *)
Definition ex_list : list lop := [Client FlowReads; Shared (Flows false); Client FlowReads; Rel (Flows false); Client FlowReads].
Lemma ex_list_runs : runs (body CFlow) ex_list.
Proof.
  cbn [body]. unfold flowRequest.
  apply (r_seq _ _ [] ex_list); [apply r_left; pick|]. apply r_right.
  apply (r_seq _ _ [Client FlowReads] (tl ex_list)); [pick|]. do 5 apply r_right. apply r_left. apply r_right.
  apply (r_seq _ _ [Shared (Flows false); Client FlowReads; Rel (Flows false)] [Client FlowReads]); [|pick].
  apply (r_seq _ _ [Shared (Flows false)] [Client FlowReads; Rel (Flows false)]); [pick|]. apply (r_seq _ _ [Client FlowReads] [Rel (Flows false)]); [|pick].
  apply (r_more _ [Client FlowReads] []); pick.
Qed.
Definition ex_listing : list thread := [mkT (skipn 2 ex_list) [(Flows false, false)]; mkT [] []; mkT ex_packet []].
Lemma ex_listing_reach first : texec first roles 3 ex_listing.
Proof.
  assert (S0 : texec first roles 3 (repeat (mkT [] []) 3)) by constructor.
  assert (S1 : texec first roles 3 [mkT ex_list []; mkT [] []; mkT [] []]) by (apply (tx_call first roles 3 _ 0 (mkT [] []) CFlow ex_list S0); try reflexivity; apply ex_list_runs).
  assert (S2 : texec first roles 3 [mkT ex_list []; mkT [] []; mkT ex_packet []]) by (apply (tx_call first roles 3 _ 2 (mkT [] []) (CFlowlb 0) ex_packet S1); try reflexivity; [cbn; lia|apply ex_packet_runs]).
  assert (ST : forall ts i ts', texec first roles 3 ts -> tstep first deaf ts i = Some ts' -> texec first roles 3 ts') by (intros; eapply tx_step; eauto).
  eapply (ST _ 0); [eapply (ST _ 0); [exact S2|]|]; destruct first; reflexivity.
Qed.
