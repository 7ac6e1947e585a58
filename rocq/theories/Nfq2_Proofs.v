(** When the program stops (C47). *)
From Verif Require Import Base IpKey_Model Nfq_Model Nfq_Spec.

Lemma sent_ends sends g q i m v g' : send_verdict sends g q i m v = (g', Exits) -> exists k, sends k = false.
Proof. unfold send_verdict. destruct (sends (zlen (g_sent g))) eqn:E; [discriminate|eauto]. Qed.
Lemma sent_goes sends g q i m v g' c : send_verdict sends g q i m v = (g', c) -> c = Goes tt \/ c = Exits.
Proof. unfold send_verdict. destruct (sends _); intros H; injection H as _ <-; auto. Qed.

Lemma msg_ends handle sends g m g' f : queue_cb handle sends g m = (g', f) -> f = Goes CbError \/ f = Exits -> ends_at handle sends m.
Proof.
  unfold queue_cb. destruct m as [rc|ps res hdr payload].
  - intros H [F|F]; injection H as _ <-; [|discriminate]. left. exists rc. split; [reflexivity|]. unfold cb_of in F. destruct (rc <? 0) eqn:E; [lia|]. destruct (rc =? 0); discriminate.
  - destruct ps; [|intros _ _; right; left; exists false, res, hdr, payload; auto]. cbn [negb]. destruct hdr as [ph|]; [|intros _ _; right; left; exists true, res, None, payload; auto].
    destruct payload as [d|]; [|intros H [F|F]; injection H as _ <-; discriminate].
    destruct (rdn ph 0 4) as [id| | |]; try (intros H [F|F]; injection H as _ <-; discriminate). destruct (rdn ph 4 2) as [hw| | |]; try (intros H [F|F]; injection H as _ <-; discriminate).
    cbn [g_calls]. destruct (handle (g_calls g + 1 - 1) (be16 hw) d) as [fw| | |] eqn:E; try (intros H [F|F]; injection H as _ <-; discriminate).
    2: { intros _ _. right. right. right. exists true, res, ph, d. split; [reflexivity|]. eauto. }
    destruct (if fw <? 0 then _ else _) as [g2 c] eqn:C. intros H F. right. right. left.
    assert (Q : exists g0 q i m v, send_verdict sends g0 q i m v = (g2, c)) by (destruct (fw <? 0); eauto 6).
    destruct Q as (g0 & q & i & m & v & Q). destruct (sent_goes _ _ _ _ _ _ _ _ Q) as [-> | ->]; [destruct F as [F|F]; injection H as _ <-; discriminate|]. eapply sent_ends; eauto.
Qed.
Lemma run_ends handle sends l : forall g g' f, cb_run handle sends g l = (g', f) -> f = Goes CbError \/ f = Exits -> exists m, In m l /\ ends_at handle sends m.
Proof.
  induction l as [|m l IH]; intros g g' f; cbn [cb_run]; [intros H [F|F]; injection H as _ <-; discriminate|].
  destruct (queue_cb handle sends g m) as [g1 f1] eqn:E. intros H F. destruct f1 as [[| |]| |].
  1,2,4,5: injection H as <- <-; exists m; split; [left; reflexivity|eapply msg_ends; eauto].
  destruct (IH _ _ _ H F) as (x & I & X). exists x. split; [right; exact I|exact X].
Qed.
Lemma loop_ends handle sends l : forall g g', loop handle sends g l = (g', Exits) -> In None l \/ exists d m, In (Some d) l /\ In m d /\ ends_at handle sends m.
Proof.
  induction l as [|[d|] l IH]; intros g g'; cbn [loop]; [discriminate| |left; left; reflexivity].
  destruct (cb_run handle sends g d) as [g1 f1] eqn:E.
  assert (N : f1 = Goes CbError \/ f1 = Exits -> In None (Some d :: l) \/ exists d0 m, In (Some d0) (Some d :: l) /\ In m d0 /\ ends_at handle sends m).
  { intros F. destruct (run_ends _ _ _ _ _ _ E F) as (m & I & M). right. exists d, m. split; [left; reflexivity|]. split; assumption. }
  intros H. destruct f1 as [[| |]| |]; [apply N; auto| | |apply N; auto|discriminate];
    (destruct (IH _ _ H) as [K|(d0 & m & I & M)]; [left; right; exact K|right; exists d0, m; split; [right; exact I|exact M]]).
Qed.
Lemma run_stops handle sends l g : nfqueueRun handle sends l = (g, Exits) -> In None l \/ exists d m, In (Some d) l /\ In m d /\ ends_at handle sends m.
Proof. apply loop_ends. Qed.
