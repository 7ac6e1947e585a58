(** The decisions of lb and flowlb are documented ones (C48). *)
From Coq Require Import String.
From Verif Require Import Base Lists Cstr_Model IpKey_Model Maglev_Model Flow_Model Remote_Model FlowLb_Model FlowLb_Spec Lb_Model Lb_Spec FragVals_Proofs.
From Verif Require Frag_Model.

(** ** Programs that end with a permitted verdict

    [l_mark]: marks of targets, [l_verdict]: permitted verdicts, [l_state]: what is known of the
    states at the steps, [l_frag]: what holds of the fragment table *)
Record policy := mkP { p_mark : Z -> Prop; p_verdict : Z -> Prop; p_state : state -> Prop; p_frag : Frag_Model.sys -> Prop }.
Fixpoint vok (P : policy) (p : prog) : Prop :=
  match p with
  | Ret (Verdict v) => p_verdict P v
  | Ret (Reply _) => True
  | Act _ f => forall s, p_state P s -> p_frag P (t_ft s) -> vokr P (f s)
  end
with vokr (P : policy) (r : result) : Prop :=
  match r with
  | Next _ s p => p_frag P (t_ft s) /\ vok P p
  | _ => True
  end.
Lemma vok_act P l f : (forall s, p_state P s -> p_frag P (t_ft s) -> vokr P (f s)) -> vok P (Act l f).
Proof. auto. Qed.
Lemma vok_stop P : vok P stop.
Proof. cbn. auto. Qed.
Lemma vok_read P reg hash k :
  (forall i, i < 0 -> vok P (k i)) ->
  (forall s r v, p_state P s -> reg s = Some r -> In v (mactive (t_mem s r)) -> vok P (k v)) ->
  vok P (readTable reg hash k).
Proof.
  intros HN HT. apply vok_act. intros s W F. destruct (reg s) as [r|] eqn:ER; [|exact I]. destruct (mM _ =? 0); [exact I|].
  destruct (aget (mlookup _) _) as [i| | |]; try exact I. destruct (Z.ltb_spec i 0) as [N|N]; (split; [exact F|]); [auto|].
  apply vok_act. clear s W F r ER. intros s W F. destruct (reg s) as [r|] eqn:ER; [|exact I].
  destruct (aget (mactive _) _) as [fw| | |] eqn:EA; try exact I. split; [exact F|]. apply (HT s r fw W ER).
  unfold aget in EA. destruct (znth (mactive (t_mem s r)) i) eqn:EZ; [|discriminate]. assert (z = fw) as <- by congruence. eapply znth_In; eauto.
Qed.
Lemma lockRef_ft s a s' : lockRef s a = Some s' -> t_ft s' = t_ft s.
Proof. unfold lockRef. destruct (deref s a); [|discriminate]. intros E. injection E as <-. reflexivity. Qed.
Lemma vok_release P l a k : vok P k -> vok P (release l a k).
Proof.
  intros K. unfold release. destruct (a =? 0); auto. apply vok_act. intros s W F. destruct (deref s a) as [o|]; [|exact I].
  destruct (_ <? 0); [exact I|]. destruct (_ =? 0); (split; [exact F|]); [|auto]. apply vok_act. clear s W F o. intros s W F.
  destruct (deref s a) as [o|]; [|exact I]. destruct (unlink _ _ _) as [l'|]; [|exact I]. split; [exact F|]. apply vok_act.
  clear s W F o l'. intros s W F. destruct (deref s a) as [o|]; [|exact I]. split; [exact F|auto].
Qed.
Lemma vok_find P t k : (forall a, vok P (k a)) -> vok P (findOrCreate t k).
Proof.
  intros K. destruct t as [t|]; [|apply K]. apply vok_act. intros s W F. destruct (search s (t_list s) t) as [| |a]; [exact I| |].
  - destruct (t_shm s t); (split; [exact F|apply K]).
  - destruct (lockRef s a) as [s'|] eqn:E; [|exact I]. cbn [vokr]. rewrite (lockRef_ft _ _ _ E). auto.
Qed.
Lemma vok_define P L a k : vok P k -> vok P (define L a k).
Proof.
  intros K. apply vok_act. intros s W F. destruct (flowDefine L (t_set s) a) as [[[e|] set]| | |]; try exact I; (split; [exact F|]); [exact I|auto].
Qed.
Lemma vok_set P L c a : vok P (setFlow L c a).
Proof.
  unfold setFlow. destruct (a =? 0); [exact I|]. destruct (c_name c) as [n|]; [|apply vok_stop].
  assert (M : vok P (define L (cmdArgs c n a) (Ret (Reply "OK")))) by (apply vok_define; exact I).
  destruct (c_udpencap c =? 0); auto. destruct (c_protocols c) as [[|p [|q r]]|]; try exact I; try apply vok_stop.
  destruct (caseeq p _); [|exact I]. destruct (1021 <? zlen n); [apply vok_stop|]. apply vok_define. auto.
Qed.
Lemma vok_command P L c : vok P (command L c).
Proof.
  unfold command. destruct (c_action c) as [a|]; [|exact I]. destruct (prefix _ _); [exact I|].
  destruct (streq a (str "set")).
  { unfold cmd_set. assert (FR : vok P (findOrCreate (c_target c) (setFlow L c))) by (apply vok_find; intros; apply vok_set).
    apply vok_act. intros s W F. destruct (c_name c) as [n|]; [|destruct (t_set s); [split; auto|exact I]].
    destruct (findName _ _) as [f|]; [|split; auto]. destruct (lockRef s (f_ref f)) as [s'|] eqn:E; [|exact I].
    cbn [vokr]. rewrite (lockRef_ft _ _ _ E). split; [exact F|]. apply vok_release. destruct (negb _); [exact I|].
    destruct (c_target c) as [t|]; [|apply vok_stop]. apply vok_act. clear s W F s' E. intros s W F. destruct (deref s (f_ref f)) as [o|]; [|exact I].
    destruct (streq t _); (split; [exact F|]); [apply vok_set|]. apply vok_find. intros a'. destruct (a' =? 0); [exact I|]. apply vok_release, vok_set. }
  destruct (streq a (str "delete")).
  { unfold cmd_delete. destruct (c_name c) as [n|]; [|exact I]. apply vok_act. intros s W F. destruct (flowDelete (t_set s) n) as [f set].
    split; [exact F|]. apply vok_release. destruct (0 <? _); [|exact I]. destruct (1021 <? _); [apply vok_stop|]. apply vok_act. clear s W F.
    intros s W F. split; [exact F|exact I]. }
  destruct (streq a (str "list")).
  { apply vok_act. intros s W F. destruct (forallb _ _); [split; [exact F|exact I]|exact I]. }
  destruct (streq a (str "list-names")); exact I.
Qed.

(** ** Packets *)

(** What a policy has to permit; [other]: also fragments other than the first are to be handled *)
Record permits (P : policy) (h : hconf) (frag other : Prop) : Prop := {
  per_drop : p_verdict P (-1);
  per_mark : forall v, p_mark P v -> p_verdict P v;
  per_notargets : p_verdict P (h_notargets h);
  per_tier : forall s r own v, frag -> p_state P s -> h_tier h = Some (r, own) -> active s r v -> v <> own -> p_verdict P v;
  per_frag : forall s c d s' ob, Frag_Model.call_op (h_frag h) s c d = Ok (s', ob) -> p_frag P s -> call_val (p_mark P) c -> p_frag P s';
  per_value : forall s now k data d s' ob, other -> Frag_Model.call_op (h_frag h) s (Frag_Model.CStore now k data) d = Ok (s', ob) ->
    p_frag P s -> obs_ok (p_mark P) ob }.

Lemma retOf_in ob rc v : retOf ob = Some (rc, v) -> exists k, In (Frag_Model.Returned k rc v) ob.
Proof.
  unfold retOf. assert (G : forall ob r, fold_left (fun r o => match o with Frag_Model.Returned _ rc v => Some (rc, v) | _ => r end) ob r = Some (rc, v) ->
    r = Some (rc, v) \/ exists k, In (Frag_Model.Returned k rc v) ob).
  { clear ob. induction ob as [|o ob IH]; cbn [fold_left]; intros r E; auto. destruct (IH _ E) as [X|(k & X)]; [|right; exists k; right; auto].
    destruct o; auto. right. exists k. left. congruence. }
  intros E. destruct (G _ _ E) as [X|X]; [discriminate|auto].
Qed.
Lemma vok_first P h fr ot now done k fi fw : permits P h fr ot -> p_mark P fw -> vok P (firstFragment h now done k fi fw).
Proof.
  intros HP M. destruct fi as [id|]; [|apply vok_stop]. apply vok_act. intros s W F.
  match goal with |- context [Frag_Model.call_op ?g ?s ?c ?d] => destruct (Frag_Model.call_op g s c d) as [[ft ob]| | |] eqn:E; try exact I end.
  destruct (retOf ob) as [[rc v]|]; [|exact I]. split.
  - cbn [set_ft t_ft]. eapply (per_frag _ _ _ _ HP); [exact E|exact F|exact M].
  - cbn [vok]. destruct (rc =? 0); [apply (per_mark _ _ _ _ HP), M|apply (per_drop _ _ _ _ HP)].
Qed.
Lemma vok_other P h (fr ot : Prop) now done k data : permits P h fr ot -> ot -> vok P (otherFragment h now done k data).
Proof.
  intros HP O. apply vok_act. intros s W F.
  match goal with |- context [Frag_Model.call_op ?g ?s ?c ?d] => destruct (Frag_Model.call_op g s c d) as [[ft ob]| | |] eqn:E; try exact I end.
  assert (F' : p_frag P ft) by (eapply (per_frag _ _ _ _ HP); [exact E|exact F|exact I]).
  pose proof (per_value _ _ _ _ HP _ _ _ _ _ _ _ O E F) as OV.
  destruct (retOf ob) as [[rc v]|] eqn:R; [|exact I]. apply retOf_in in R. destruct R as (k' & R).
  assert (D : vokr P (Next [] (set_ft s ft []) (Ret (Verdict (-1))))) by (split; [exact F'|apply (per_drop _ _ _ _ HP)]).
  destruct rc; try exact D. destruct v as [v|]; [|exact I]. split; [exact F'|]. apply (per_mark _ _ _ _ HP). apply (OV _ _ _ R).
Qed.
Lemma vok_tier P h (fr ot : Prop) k local : permits P h fr ot -> fr -> vok P local -> vok P (tier h k local).
Proof.
  intros HP FR L. unfold tier. destruct (h_tier h) as [[r own]|] eqn:T; auto. apply vok_read.
  - intros i N. destruct (Z.leb_spec 0 i); [lia|]. exact L.
  - intros s r' v W R IN. destruct (Z.leb_spec 0 v) as [N|N]; [|exact L]. destruct (Z.eqb_spec v own) as [->|NE]; [exact L|].
    cbn [negb andb]. apply (per_tier _ _ _ _ HP s r own v FR W T); auto. assert (r' = r) as <- by congruence. split; auto.
Qed.
Lemma vok_lookup P h k eth data u kont :
  (forall u', vok P (kont 0 u')) ->
  (forall s a u', p_state P s -> flowLookup (h_ping h) (t_set s) k eth (Some data) u = Ok (a, u') -> a <> 0 -> vok P (kont a u')) ->
  vok P (lookup h k eth data u kont).
Proof.
  intros K0 K. apply vok_act. intros s W F. destruct (flowLookup _ _ _ _ _ _) as [[a u']| | |] eqn:E; try exact I.
  destruct (Z.eqb_spec a 0) as [->|N]; [split; auto|]. destruct (lockRef s a) as [s'|] eqn:EL; [|exact I]. cbn [vokr].
  rewrite (lockRef_ft _ _ _ EL). split; [exact F|]. eapply K; eauto.
Qed.
Lemma vok_forward P h fr ot now done rc k fi a : permits P h fr ot -> p_verdict P (h_nolb h) ->
  (forall s r v, p_state P s -> a <> 0 -> lbRegion a s = Some r -> active s r v -> p_mark P v) -> vok P (forward h now done rc k fi a).
Proof.
  intros HP NL HT. unfold forward. destruct (Z.eqb_spec a 0) as [->|N]; [exact NL|].
  assert (TR : forall p, vok P p -> vok P (traceTarget h a p)).
  { intros p Hp. unfold traceTarget. destruct (h_trace h); auto. apply vok_act. intros s W F. destruct (deref s a); [split; auto|exact I]. }
  apply vok_read.
  - intros i NI. apply vok_release, TR. destruct (Z.ltb_spec i 0); [|lia]. apply (per_notargets _ _ _ _ HP).
  - intros s r v W R IN. apply vok_release, TR. destruct (Z.ltb_spec v 0) as [NV|NV]; [apply (per_notargets _ _ _ _ HP)|].
    assert (M : p_mark P v) by (apply (HT s r v W N R); split; auto).
    destruct (_ =? 0); [apply (per_mark _ _ _ _ HP), M|]. eapply vok_first; eauto.
Qed.
Lemma vok_packet P h now done eth data : permits P h (fragment 0 eth data) (other_fragment 0 eth data) -> p_verdict P (h_nolb h) ->
  (forall s s' a r v, p_state P s -> selects h s eth data a -> p_state P s' -> lbRegion a s' = Some r -> active s' r v -> p_mark P v) ->
  vok P (packet h now done eth data).
Proof.
  intros HP NL HT. unfold packet.
  assert (CL : forall enc rc k fi, getHashKey (S (length data)) enc eth data = Ok (Some (rc, k, fi)) -> vok P (classify h now done eth data rc k fi)).
  { intros enc rc k fi EG. unfold classify.
    assert (FW : forall enc rc k fi fi' u s u' a, getHashKey (S (length data)) enc eth data = Ok (Some (rc, k, fi)) -> p_state P s ->
        flowLookup (h_ping h) (t_set s) k eth (Some data) u = Ok (a, u') -> vok P (forward h now done rc k fi' a)).
    { intros enc1 rc1 k1 fi1 fi1' u1 s1 u1' a1 EG1 W1 EF1. eapply vok_forward; eauto. intros s r v W N R AC. eapply (HT s1 s a1 r v W1); eauto.
      exists enc1, rc1, k1, fi1, u1, u1'. auto. }
    assert (F0 : forall rc k fi, vok P (forward h now done rc k fi 0)) by (intros; exact NL).
    assert (SEC : forall u, vok P (match getHashKey (S (length data)) u eth data with
        | Ok None => Ret (Verdict (-1))
        | Ok (Some (rc', k', fi')) =>
          lookup h k' eth data 0 (fun a' _ =>
            forward h now done rc' k' (match fi' with None => fi | _ => fi' end) a')
        | _ => stop
        end)).
    { intros u. destruct (getHashKey _ u eth data) as [[[[rc' k'] fi']|]| | |] eqn:EG'; try apply vok_stop; [|apply (per_drop _ _ _ _ HP)].
      apply vok_lookup; [intros; apply F0|]. intros s a u' W EF N. eapply FW; eauto. }
    apply vok_lookup.
    - intros u'. destruct (_ && _); [apply SEC|apply F0].
    - intros s a u' W EF N. destruct (_ && _); [apply SEC|]. eapply FW; eauto. }
  destruct (getHashKey _ 0 eth data) as [[[[rc k] fi]|]| | |] eqn:EG; try apply vok_stop; [|apply (per_drop _ _ _ _ HP)].
  destruct (Z.eqb_spec (Z.land rc 3) 0) as [N|N]; [eapply CL; eauto|].
  eapply vok_tier; [eauto|exists rc, k, fi; auto|]. destruct (Z.eqb_spec (Z.land rc 1) 0) as [N1|N1]; [|eapply CL; eauto].
  eapply vok_other; [eauto|]. exists rc, k, fi. auto.
Qed.
Lemma vok_lb P g now done eth data : permits P (l_h g) (fragment (l_encap g) eth data) (other_fragment (l_encap g) eth data) ->
  (forall s v, p_state P s -> active s (l_target g) v -> p_mark P v) -> vok P (lbPacket g now done eth data).
Proof.
  intros HP HT. unfold lbPacket.
  assert (B : forall rc k fi, vok P (balance g now done rc k fi)).
  { intros rc k fi. unfold balance. apply vok_read.
    - intros i NI. destruct (Z.ltb_spec i 0); [|lia]. apply (per_notargets _ _ _ _ HP).
    - intros s r v W R IN. destruct (Z.ltb_spec v 0) as [NV|NV]; [apply (per_notargets _ _ _ _ HP)|].
      assert (M : p_mark P v) by (apply (HT s v W); assert (l_target g = r) as -> by congruence; split; auto).
      destruct (_ =? 0); [apply (per_mark _ _ _ _ HP), M|]. eapply vok_first; eauto. }
  destruct (getHashKey _ _ eth data) as [[[[rc k] fi]|]| | |] eqn:EG; try apply vok_stop; [|apply (per_drop _ _ _ _ HP)].
  destruct (Z.eqb_spec (Z.land rc 3) 0) as [N|N]; [apply B|].
  eapply vok_tier; [eauto|exists rc, k, fi; auto|]. destruct (Z.eqb_spec (Z.land rc 1) 0) as [N1|N1]; [|apply B].
  eapply vok_other; [eauto|]. exists rc, k, fi. auto.
Qed.
