(** Proofs about the verdicts (C47). *)
From Verif Require Import Base Lists IpKey_Model Nfq_Model Nfq_Spec.

Lemma zlen_app {A} (a b : list A) : zlen (a ++ b) = zlen a + zlen b.
Proof. unfold zlen. rewrite app_length. lia. Qed.
Lemma number2 l : length l = 2%nat -> be16 l = number l.
Proof. destruct l as [|a [|b [|c l]]]; try discriminate. intros _. unfold be16, number. cbn [nth fold_left]. lia. Qed.
Lemma number4 l : length l = 4%nat -> be32 l = number l.
Proof. destruct l as [|a [|b [|c [|d [|e l]]]]]; try discriminate. intros _. unfold be32, number. cbn [nth fold_left]. lia. Qed.
Lemma number2_range l : length l = 2%nat -> Forall (fun b => 0 <= b < 256) l -> 0 <= number l < 65536.
Proof.
  destruct l as [|a [|b [|c l]]]; try discriminate. intros _ H. pose proof (Forall_inv H) as A. pose proof (Forall_inv (Forall_inv_tail H)) as B. cbv beta in A, B.
  unfold number. cbn [fold_left]. lia.
Qed.
Lemma rdn_app a b n : length a = n -> rdn (a ++ b) 0 n = Ok a.
Proof.
  intros H. unfold rdn. rewrite zlen_app. replace (0 <=? 0) with true by reflexivity.
  assert (E : 0 + Z.of_nat n <=? zlen a + zlen b = true) by (unfold zlen; lia). rewrite E. cbn [andb].
  cbn [Z.to_nat skipn]. rewrite firstn_app, <- H, Nat.sub_diag, firstn_all. cbn. rewrite app_nil_r. auto.
Qed.
Lemma rdn_skip a b c n : length b = n -> rdn (a ++ b ++ c) (zlen a) n = Ok b.
Proof.
  intros H. unfold rdn. rewrite !zlen_app.
  assert (E : (0 <=? zlen a) && (zlen a + Z.of_nat n <=? zlen a + (zlen b + zlen c)) = true) by (unfold zlen; lia). rewrite E.
  f_equal. unfold zlen. rewrite Nat2Z.id, skipn_app, Nat.sub_diag, skipn_all. cbn [app skipn].
  rewrite firstn_app, <- H, Nat.sub_diag, firstn_all. cbn. apply app_nil_r.
Qed.

Lemma cb_packet handle sends g m p : packet_msg m p ->
  queue_cb handle sends g m =
    match handle (g_calls g) (p_proto p) (p_data p) with
    | Ok fw => (mkLog (g_calls g + 1) (g_sent g ++ [mkSent (p_queue p) (if fw <? 0 then NF_DROP else NF_ACCEPT) (p_id p) (if fw <? 0 then 0 else u32 fw)]),
                if sends (zlen (g_sent g)) then Goes CbOk else Exits)
    | Die => (mkLog (g_calls g + 1) (g_sent g), Exits)
    | _ => (mkLog (g_calls g + 1) (g_sent g), Undefined)
    end.
Proof.
  intros (q & id & hw & hook & -> & L1 & L2 & L3 & F & N1 & N2 & N3). unfold queue_cb. cbn [negb].
  rewrite (rdn_app id (hw ++ hook) 4 L2). replace 4 with (zlen id) by (unfold zlen; lia). rewrite (rdn_skip id hw hook 2 L3). cbn [g_calls g_sent].
  rewrite (number2 hw L3), N3. replace (g_calls g + 1 - 1) with (g_calls g) by lia.
  destruct (handle (g_calls g) (p_proto p) (p_data p)) as [fw| | |]; auto.
  apply Forall_app in F. destruct F as (F & _). pose proof (number2_range q L1 F) as R.
  unfold send_verdict. cbn [g_calls g_sent]. rewrite (number2 q L1), (number4 id L2), Z.mod_small, N1, N2 by lia.
  destruct (fw <? 0); destruct (sends (zlen (g_sent g))); auto.
Qed.

(** Datagrams with one packet each *)
Definition singles (l : list recv) (ps : list queued) : Prop :=
  Forall2 (fun d p => exists m, d = Some [m] /\ packet_msg m p) l ps.
(** What has been sent after the packets [ps] *)
Lemma loop_packets handle sends l : forall ps g g' f, singles l ps -> (forall x, In (Ok x) (results handle (g_calls g) ps) -> int x) ->
  loop handle sends g l = (g', f) ->
  exists k fws, (k <= length ps)%nat /\ map Ok fws = results handle (g_calls g) (firstn k ps) /\
    g_sent g' = g_sent g ++ map (fun x => verdict (fst x) (snd x)) (combine (firstn k ps) fws) /\
    (forall i, zlen (g_sent g) <= i < zlen (g_sent g') - 1 -> sends i = true) /\
    match f with
    | Goes _ => k = length ps /\ (forall i, zlen (g_sent g) <= i < zlen (g_sent g') -> sends i = true)
    | Exits => (0 < k)%nat /\ sends (zlen (g_sent g') - 1) = false \/ (exists p, nth_error ps k = Some p /\ handle (g_calls g + Z.of_nat k) (p_proto p) (p_data p) = Die)
    | Undefined => exists p, nth_error ps k = Some p /\ (forall x, handle (g_calls g + Z.of_nat k) (p_proto p) (p_data p) <> Ok x) /\
                     handle (g_calls g + Z.of_nat k) (p_proto p) (p_data p) <> Die
    end.
Proof.
  induction l as [|d l IH]; intros ps g g' f H I E.
  - inversion H. subst ps. cbn [loop] in E. assert (g' = g /\ f = Goes tt) as (-> & ->) by (split; congruence).
    exists 0%nat, []. cbn. split; [lia|]. split; auto. split; [rewrite app_nil_r; auto|]. split; [intros; lia|]. split; auto. intros; lia.
  - inversion H as [|d' p l' ps' (m & -> & M) H' E1 E2]. subst ps d l'. cbn [loop cb_run] in E.
    rewrite (cb_packet handle sends g m p M) in E.
    destruct (handle (g_calls g) (p_proto p) (p_data p)) as [fw| | |] eqn:EH; cbn iota beta in E.
    2-4: exists 0%nat, []; cbn [firstn combine map length results]; rewrite app_nil_r, Z.add_0_r; cbn [nth_error].
    2-4: assert (g' = mkLog (g_calls g + 1) (g_sent g)) as -> by congruence; cbn [g_sent]; split; [lia|]; split; auto; split; auto; split; [intros; lia|].
    2: assert (f = Exits) as -> by congruence; right; exists p; auto.
    2-3: assert (f = Undefined) as -> by congruence; exists p; split; auto; rewrite EH; split; [intros x|]; discriminate.
    assert (IX : int fw) by (apply I; left; auto).
    assert (EV : mkSent (p_queue p) (if fw <? 0 then NF_DROP else NF_ACCEPT) (p_id p) (if fw <? 0 then 0 else u32 fw) = verdict p fw).
    { unfold verdict. destruct (Z.ltb_spec fw 0), (Z.leb_spec 0 fw); try lia; auto. unfold int in IX. f_equal. unfold u32. apply Z.mod_small. unfold two32. lia. }
    rewrite EV in E. destruct (sends (zlen (g_sent g))) eqn:ES; cbn iota beta in E.
    + destruct (IH ps' (mkLog (g_calls g + 1) (g_sent g ++ [verdict p fw])) g' f H' ltac:(intros x HI; apply I; right; exact HI) E) as (k & fws & K & R & ST & SO & F).
      cbn [g_calls g_sent] in R, ST, SO, F. exists (S k), (fw :: fws).
      cbn [firstn combine map length results fst snd].
      assert (ZL : zlen (g_sent g ++ [verdict p fw]) = zlen (g_sent g) + 1) by (rewrite zlen_app; reflexivity).
      split; [lia|]. split; [rewrite R, EH; auto|]. split; [rewrite ST, <- app_assoc; auto|].
      split; [intros i HI; destruct (Z.eq_dec i (zlen (g_sent g))) as [->|]; auto; apply SO; lia|].
      destruct f.
      * destruct F as (F1 & F2). split; auto. intros i HI. destruct (Z.eq_dec i (zlen (g_sent g))) as [->|]; auto. apply F2; lia.
      * replace (g_calls g + Z.of_nat (S k)) with (g_calls g + 1 + Z.of_nat k) by lia. destruct F as [(F1 & F2)|F]; [left; split; [lia|auto]|right; auto].
      * replace (g_calls g + Z.of_nat (S k)) with (g_calls g + 1 + Z.of_nat k) by lia. auto.
    + assert (g' = mkLog (g_calls g + 1) (g_sent g ++ [verdict p fw]) /\ f = Exits) as (-> & ->) by (split; congruence).
      exists 1%nat, [fw]. cbn [firstn combine map length results g_sent fst snd app]. split; [lia|]. split; [rewrite EH; auto|]. split; auto.
      assert (ZL : zlen (g_sent g ++ [verdict p fw]) = zlen (g_sent g) + 1) by (rewrite zlen_app; reflexivity).
      rewrite ZL. split; [intros; lia|]. left. split; [lia|]. rewrite Z.add_simpl_r. auto.
Qed.

Lemma loop_cons handle sends g d r : loop handle sends g (Some d :: r) =
  match cb_run handle sends g d with
  | (g, Goes CbError) => (g, Exits) | (g, Goes _) => loop handle sends g r
  | (g, Exits) => (g, Exits) | (g, Undefined) => (g, Undefined)
  end.
Proof. cbn [loop]. destruct (cb_run handle sends g d) as [g' [[]| |]]; reflexivity. Qed.
(** Several messages in a datagram *)
Lemma loop_flat handle sends dss : Forall (fun m => exists p, packet_msg m p) (concat dss) ->
  forall g r, loop handle sends g (map Some dss ++ r) = loop handle sends g (map (fun m => Some [m]) (concat dss) ++ r).
Proof.
  induction dss as [|d dss IH]; intros H g r; [reflexivity|]. cbn [concat map app] in H |- *.
  apply Forall_app in H. destruct H as (H1 & H2). rewrite map_app, <- app_assoc, loop_cons.
  revert g. induction d as [|m d IHd]; intros g.
  - cbn [cb_run map app]. apply IH. auto.
  - inversion H1 as [|m' d' (p & M) H1' E1]. subst. cbn [cb_run map app loop].
    rewrite (cb_packet handle sends g m p M).
    destruct (handle (g_calls g) (p_proto p) (p_data p)); auto. destruct (sends (zlen (g_sent g))); auto.
Qed.
Lemma packets_flat l ps : packets l ps -> exists dss, l = map Some dss /\ Forall2 packet_msg (concat dss) ps.
Proof.
  intros (pss & -> & H). induction H as [|d q l pss (ms & -> & M) H IH]; [exists []; cbn; auto|].
  destruct IH as (dss & -> & F). exists (ms :: dss). cbn. split; auto. apply Forall2_app; auto.
Qed.
Lemma verdicts handle sends l ps g f : packets l ps -> (forall n eth d x, handle n eth d = Ok x -> int x) ->
  nfqueueRun handle sends l = (g, f) ->
  exists k fws, (k <= length ps)%nat /\ map Ok fws = results handle 0 (firstn k ps) /\
    g_sent g = map (fun x => verdict (fst x) (snd x)) (combine (firstn k ps) fws) /\
    (forall i, 0 <= i < Z.of_nat k - 1 -> sends i = true) /\
    match f with
    | Goes _ => k = length ps /\ (forall i, 0 <= i < Z.of_nat k -> sends i = true)
    | Exits => (0 < k)%nat /\ sends (Z.of_nat k - 1) = false \/
               (exists p, nth_error ps k = Some p /\ handle (Z.of_nat k) (p_proto p) (p_data p) = Die)
    | Undefined => exists p, nth_error ps k = Some p /\ (forall x, handle (Z.of_nat k) (p_proto p) (p_data p) <> Ok x) /\
                     handle (Z.of_nat k) (p_proto p) (p_data p) <> Die
    end.
Proof.
  intros H I E. destruct (packets_flat l ps H) as (dss & -> & F).
  assert (A : Forall (fun m => exists p, packet_msg m p) (concat dss)).
  { clear -F. induction F as [|m p l ps M F IH]; constructor; eauto. }
  unfold nfqueueRun in E. rewrite <- (app_nil_r (map Some dss)), (loop_flat handle sends dss A), app_nil_r in E.
  assert (S1 : singles (map (fun m => Some [m]) (concat dss)) ps).
  { clear -F. induction F as [|m p l ps M F IH]; cbn; constructor; eauto. }
  destruct (loop_packets handle sends _ ps (mkLog 0 []) g f S1) as (k & fws & K & R & ST & SO & FT); auto.
  { cbn [g_calls]. clear -I. intros x. generalize 0. induction ps as [|p ps IH]; intros n HI; [destruct HI|].
    destruct HI as [HI|HI]; eauto. }
  cbn [g_calls g_sent] in *. cbn [app] in ST. exists k, fws.
  assert (LF : length fws = k).
  { pose proof (f_equal (@length _) R) as L. rewrite map_length in L. rewrite L. clear -K.
    assert (G : forall n l, length (results handle n l) = length l) by (intros n l; revert n; induction l as [|? ? IHl]; intros n; cbn; auto).
    rewrite G, firstn_length. lia. }
  assert (LS : zlen (g_sent g) = Z.of_nat k).
  { rewrite ST. unfold zlen. rewrite map_length, combine_length, firstn_length, LF. lia. }
  change (zlen (@nil sent)) with 0 in *. rewrite LS in *. cbn [Z.add] in FT. repeat (split; auto).
Qed.

Lemma zlen1 {A} (x : A) : zlen [x] = 1. Proof. reflexivity. Qed.
(** Any messages *)
Definition counted (n : Z) (g g' : log) {A} (f : fate A) : Prop :=
  g_calls g <= g_calls g' <= g_calls g + n /\
  (match f with Goes _ => zlen (g_sent g') - zlen (g_sent g) = g_calls g' - g_calls g
   | _ => g_calls g' - g_calls g - 1 <= zlen (g_sent g') - zlen (g_sent g) <= g_calls g' - g_calls g end).
Lemma cb_counted handle sends g m g' f : queue_cb handle sends g m = (g', f) -> counted (if has_packet m then 1 else 0) g g' f.
Proof.
  unfold counted. destruct m as [rc|ok res hdr pl]; cbn [queue_cb has_packet].
  - intros E. assert (g' = g /\ f = Goes (cb_of rc)) as (-> & ->) by (split; congruence). lia.
  - destruct ok; cbn [negb]; [|intros E; assert (g' = g /\ f = Goes CbError) as (-> & ->) by (split; congruence); lia].
    destruct hdr as [ph|]; [|intros E; assert (g' = g /\ f = Goes CbError) as (-> & ->) by (split; congruence); lia].
    destruct pl as [data|]; [|intros E; assert (g' = g /\ f = Undefined) as (-> & ->) by (split; congruence); lia].
    destruct (rdn ph 0 4) as [id| | |]; try (intros E; assert (g' = g /\ f = Undefined) as (-> & ->) by (split; congruence); lia).
    destruct (rdn ph 4 2) as [hw| | |]; try (intros E; assert (g' = g /\ f = Undefined) as (-> & ->) by (split; congruence); lia).
    cbn [g_calls g_sent]. destruct (handle (g_calls g + 1 - 1) (be16 hw) data) as [fw| | |].
    + unfold send_verdict. cbn [g_calls g_sent].
      destruct (fw <? 0), (sends (zlen (g_sent g))); intros E; injection E as <- <-; cbn [g_calls g_sent]; rewrite zlen_app; rewrite zlen1; lia.
    + intros E; injection E as <- <-. cbn [g_calls g_sent]. lia.
    + intros E; injection E as <- <-. cbn [g_calls g_sent]. lia.
    + intros E; injection E as <- <-. cbn [g_calls g_sent]. lia.
Qed.
Lemma run_counted handle sends d : forall g g' f, cb_run handle sends g d = (g', f) -> counted (zlen (filter has_packet d)) g g' f.
Proof.
  induction d as [|m d IH]; intros g g' f E; cbn [cb_run filter] in *.
  - injection E as <- <-. unfold counted, zlen. cbn [length]. lia.
  - destruct (queue_cb handle sends g m) as [g1 f1] eqn:E1. pose proof (cb_counted handle sends g m g1 f1 E1) as C1.
    assert (Z1 : zlen (if has_packet m then m :: filter has_packet d else filter has_packet d) = (if has_packet m then 1 else 0) + zlen (filter has_packet d)).
    { unfold zlen. destruct (has_packet m); cbn [length]; lia. }
    rewrite Z1. assert (P : 0 <= zlen (filter has_packet d)) by (unfold zlen; lia).
    destruct f1 as [[]| |]; try (injection E as <- <-; unfold counted in *; lia).
    specialize (IH g1 g' f E). unfold counted in *. destruct f; lia.
Qed.
Lemma loop_counted handle sends l : forall g g' f, loop handle sends g l = (g', f) -> counted (packet_msgs l) g g' f.
Proof.
  unfold packet_msgs. induction l as [|[d|] l IH]; intros g g' f E.
  - injection E as <- <-. unfold counted, zlen. cbn. lia.
  - rewrite loop_cons in E. cbn [flat_map]. rewrite filter_app, zlen_app.
    assert (P : 0 <= zlen (filter has_packet (flat_map (fun d => match d with Some ms => ms | None => [] end) l))) by (unfold zlen; lia).
    destruct (cb_run handle sends g d) as [g1 f1] eqn:E1. pose proof (run_counted handle sends d g g1 f1 E1) as C1.
    destruct f1 as [[]| |]; try (injection E as <- <-; unfold counted in *; lia).
    all: specialize (IH g1 g' f E); unfold counted in *; destruct f; lia.
  - cbn [loop flat_map app] in *. injection E as <- <-. unfold counted.
    assert (P : 0 <= zlen (filter has_packet (flat_map (fun d => match d with Some ms => ms | None => [] end) l))) by (unfold zlen; lia). lia.
Qed.
Lemma never_more handle sends l g f : nfqueueRun handle sends l = (g, f) ->
  zlen (g_sent g) <= g_calls g <= packet_msgs l /\ g_calls g - 1 <= zlen (g_sent g) /\ (forall x, f = Goes x -> zlen (g_sent g) = g_calls g).
Proof.
  intros E. pose proof (loop_counted handle sends l _ _ _ E) as C. unfold counted in C. cbn [g_calls g_sent] in C.
  change (zlen (@nil sent)) with 0 in C. destruct f; split; try lia; split; try lia; intros y H; try discriminate; lia.
Qed.
