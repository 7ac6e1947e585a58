(** The printed statistics (C73). *)
From Coq Require Import String Lia.
From Verif Require Import Base Lists Cstr_Model Rangeset_Model Rangeset_Spec Rangeset2_Proofs Print_Spec Print3_Proofs Shm5_Proofs
  Conntrack_Model Frag_Model Stats_Model Stats_Spec.

(** ** JSON: outside strings, colons are not more than commas and braces *)
Definition weigh (a : bool * Z) (c : Z) : bool * Z :=
  let '(q, w) := a in
  if c =? 34 then (negb q, w) else if q then (q, w)
  else if c =? 58 then (q, w + 1) else if (c =? 44) || (c =? 123) then (q, w - 1) else (q, w).
Notation weight := (fold_left weigh).

Lemma weight_ws s : ws s -> forall w, weight s (false, w) = (false, w).
Proof.
  induction 1 as [|c s Hc F IH]; intros w; cbn [fold_left]; auto.
  replace (weigh (false, w) c) with (false, w); auto. destruct Hc as [H|[H|[H|H]]]; rewrite H; reflexivity.
Qed.
Lemma weight_clean s : clean s -> forall w, weight s (true, w) = (true, w).
Proof.
  induction 1 as [|c s Hc F IH]; intros w; cbn [fold_left]; auto.
  replace (weigh (true, w) c) with (true, w); auto. unfold weigh. destruct (c =? 34) eqn:E; [lia|reflexivity].
Qed.
Lemma weight_num s : Forall (fun c => 48 <= c <= 57) s -> forall w, weight s (false, w) = (false, w).
Proof.
  induction 1 as [|c s Hc F IH]; intros w; cbn [fold_left]; auto.
  replace (weigh (false, w) c) with (false, w); auto. unfold weigh.
  destruct (c =? 34) eqn:E; [lia|]. destruct (c =? 58) eqn:E1; [lia|]. destruct (c =? 44) eqn:E2; [lia|]. destruct (c =? 123) eqn:E3; [lia|]. reflexivity.
Qed.

Scheme reads_mut := Minimality for reads Sort Prop
  with items_mut := Minimality for items Sort Prop
  with members_mut := Minimality for members Sort Prop.

Definition light (b : Z) (s : chars) : Prop := forall w, exists w', weight s (false, w) = (false, w') /\ w' <= w + b.
Lemma light_reads s v : reads s v -> light 0 s.
Proof.
  apply (reads_mut (fun s _ => light 0 s) (fun s _ => light 0 s) (fun s _ => light 1 s)); unfold light.
  - intros d n (_ & F & _) w. exists w. rewrite weight_num by auto. split; [auto|lia].
  - intros k C w. exists w. rewrite !fold_left_app. cbn [fold_left str list_ascii_of_string map]. cbn. rewrite weight_clean by auto. cbn. split; [auto|lia].
  - intros k C w. exists w. rewrite !fold_left_app. cbn. rewrite weight_ws by auto. cbn. split; [auto|lia].
  - intros k l _ IH w. destruct (IH w) as (w' & E & B). exists w'. rewrite !fold_left_app. cbn. rewrite E. cbn. split; [auto|lia].
  - intros k l _ IH w. destruct (IH (w - 1)) as (w' & E & B). exists w'. rewrite !fold_left_app. cbn. rewrite E. cbn. split; [auto|lia].
  - intros w s0 w' v0 W _ IH W' z. rewrite !fold_left_app, (weight_ws w) by auto. destruct (IH z) as (z' & E & B). rewrite E, weight_ws by auto. exists z'. auto.
  - intros w s0 w' v0 t l W _ IH W' _ IH2 z. rewrite !fold_left_app, (weight_ws w) by auto. destruct (IH z) as (z' & E & B). rewrite E, weight_ws by auto. cbn.
    destruct (IH2 (z' - 1)) as (z2 & E2 & B2). rewrite E2. exists z2. split; [auto|lia].
  - intros w k w1 w2 s0 w' v0 W C W1 W2 _ IH W' z. rewrite !fold_left_app, (weight_ws w) by auto. cbn. rewrite weight_clean by auto. cbn.
    rewrite (weight_ws w1) by auto. cbn. rewrite (weight_ws w2) by auto. destruct (IH (z + 1)) as (z' & E & B). rewrite E, weight_ws by auto. exists z'. split; [auto|lia].
  - intros w k w1 w2 s0 w' v0 t l W C W1 W2 _ IH W' _ IH2 z. rewrite !fold_left_app, (weight_ws w) by auto. cbn. rewrite weight_clean by auto. cbn.
    rewrite (weight_ws w1) by auto. cbn. rewrite (weight_ws w2) by auto. destruct (IH (z + 1)) as (z' & E & B). rewrite E, weight_ws by auto. cbn.
    destruct (IH2 (z' - 1)) as (z2 & E2 & B2). rewrite E2. exists z2. split; [auto|lia].
Qed.
Lemma light_json s v : json_text s v -> light 0 s.
Proof.
  intros (w & t & w' & -> & W & W' & R) z. rewrite !fold_left_app, (weight_ws w) by auto.
  destruct (light_reads _ _ R z) as (z' & E & B). rewrite E, weight_ws by auto. eauto.
Qed.

Lemma weight_row s v e w d d' : is_u32 v -> weight (str s) (false, w) = (false, d) -> weight (str e ++ [10]) (false, d) = (false, d') ->
  forall r, weight (row s v e ++ r) (false, w) = weight r (false, d').
Proof.
  intros U E E' r. unfold row. rewrite fold_left_app, !fold_left_app with (l := str s), E.
  rewrite fold_left_app, weight_num, E' by (apply dec_ok; auto). reflexivity.
Qed.

Lemma millis_u32 f : is_u32 (u32 (z_ttlNanos f / 1000000)).
Proof. unfold is_u32, UINT_MAX, u32. pose proof (Z.mod_pos_bound (z_ttlNanos f / 1000000) two32 eq_refl). unfold two32 in *. lia. Qed.

Lemma stats_weight f : stats_ok f -> weight (fragPrintStats f) (false, 0) = (false, 1).
Proof.
  intros H. unfold stats_ok in H. repeat (apply Forall_cons_iff in H; destruct H as [? H]). unfold fragPrintStats.
  rewrite fold_left_app. change (weight (str "{") (false, 0)) with (false, -1). rewrite fold_left_app. change (weight [10] (false, -1)) with (false, -1).
  pose proof (millis_u32 f).
  repeat (erewrite weight_row; [|assumption|reflexivity|reflexivity]).
  reflexivity.
Qed.
Lemma stats_not_json f : stats_ok f -> ~ exists v, json_text (fragPrintStats f) v.
Proof. intros H (v & J). destruct (light_json _ _ J 0) as (w & E & B). rewrite (stats_weight f H) in E. injection E as <-. lia. Qed.

(** ** With the missing comma *)
Lemma memtext_row s k v m : (exists n, s = [10] ++ str "  """ ++ k ++ str """:" ++ repeat 32 n) -> clean k -> is_u32 v -> m = s ++ dec v -> memtext m (k, JNum v).
Proof.
  intros (n & ->) K U ->. exists ([10] ++ str "  "), [], (repeat 32 n), (dec v), []. cbn [fst snd].
  split; [rewrite app_nil_r, <- !app_assoc; reflexivity|].
  split; [apply ws_str; reflexivity|]. split; [auto|]. split; [constructor|]. split; [apply Forall_forall; intros c Hc; apply repeat_spec in Hc; auto|].
  split; [apply dec_reads; auto|constructor].
Qed.

Definition ln (s : string) (v : Z) : chars := [10] ++ str s ++ dec v.
Lemma stats_shown f : stats_ok f -> exists a b, fragPrintStats f = a ++ b /\
  json_text (a ++ str "," ++ b) (stats_object f (u32 (z_ttlNanos f / 1000000))).
Proof.
  intros H. unfold stats_ok in H. repeat (apply Forall_cons_iff in H; destruct H as [? H]). pose proof (millis_u32 f) as HT.
  set (m1 := ln "  ""hsize"":            " (z_size f)).
  set (ms := [ln "  ""ttlMillis"":        " (u32 (z_ttlNanos f / 1000000));
              ln "  ""collisions"":       " (z_collisions f);
              ln "  ""inserts"":          " (z_inserts f);
              ln "  ""rejected"":         " (z_rejected f);
              ln "  ""lookups"":          " (z_lookups f);
              ln "  ""objGC"":            " (z_objGC f);
              ln "  ""mtu"":              " (z_mtu f);
              ln "  ""bucketsMax"":       " (z_bucketsMax f);
              ln "  ""bucketsAllocated"": " (z_bucketsAllocated f);
              ln "  ""bucketsUsed"":      " (z_bucketsUsed f);
              ln "  ""fragsMax"":         " (z_fragsMax f);
              ln "  ""fragsAllocated"":   " (z_fragsAllocated f);
              ln "  ""fragsDiscarded"":   " (z_fragsDiscarded f)]).
  set (ml := ln "  ""reAssembled"":      " (z_reAssembled f)).
  exists (str "{" ++ m1 ++ concat (map (cons 44) ms)), (ml ++ [10] ++ str "}" ++ [10]).
  split.
  { subst m1 ms ml. unfold ln, fragPrintStats, row. cbn [map concat].
    generalize (dec (z_size f)) (dec (u32 (z_ttlNanos f / 1000000))) (dec (z_collisions f)) (dec (z_inserts f)) (dec (z_rejected f)) (dec (z_lookups f))
      (dec (z_objGC f)) (dec (z_mtu f)) (dec (z_bucketsMax f)) (dec (z_bucketsAllocated f)) (dec (z_bucketsUsed f)) (dec (z_fragsMax f))
      (dec (z_fragsAllocated f)) (dec (z_fragsDiscarded f)) (dec (z_reAssembled f)). intros.
    cbn [str list_ascii_of_string map app]. rewrite <- ?app_assoc. cbn. repeat (rewrite <- ?app_assoc; cbn [app]). reflexivity. }
  exists [], (str "{" ++ (m1 ++ concat (map (cons 44) (ms ++ [ml])) ++ [10]) ++ str "}"), [10].
  split. { rewrite map_app, concat_app. cbn [map concat]. rewrite app_nil_r, <- !app_assoc. reflexivity. }
  split; [constructor|]. split; [apply ws_str; reflexivity|]. unfold stats_object. constructor.
  assert (MT : forall s v k n, is_u32 v -> clean (str k) -> str s = str "  """ ++ str k ++ str """:" ++ repeat 32 n -> memtext (ln s v) (num k v)).
  { intros s v k n U K E. apply (memtext_row ([10] ++ str s)); auto. exists n. rewrite E. reflexivity. }
  apply members_join.
  - subst ms ml. cbn [app]. repeat (constructor; [eapply MT; [assumption|apply clean_str; reflexivity|]; first
      [instantiate (1 := 12%nat); reflexivity|instantiate (1 := 11%nat); reflexivity|instantiate (1 := 10%nat); reflexivity|instantiate (1 := 9%nat); reflexivity|
       instantiate (1 := 8%nat); reflexivity|instantiate (1 := 7%nat); reflexivity|instantiate (1 := 6%nat); reflexivity|instantiate (1 := 5%nat); reflexivity|instantiate (1 := 4%nat); reflexivity|
       instantiate (1 := 3%nat); reflexivity|instantiate (1 := 1%nat); reflexivity|instantiate (1 := 13%nat); reflexivity|instantiate (1 := 14%nat); reflexivity]|]).
    constructor.
  - apply (MT _ _ _ 12%nat); [assumption|apply clean_str; reflexivity|reflexivity].
  - apply ws_str. reflexivity.
Qed.

(** ** The text determines the counters *)
Lemma row_inj s v v' e r r' : is_u32 v -> is_u32 v' -> hdn numc (str e ++ [10]) -> row s v e ++ r = row s v' e ++ r' -> v = v' /\ r = r'.
Proof.
  intros U U' N E. unfold row in E. rewrite <- !app_assoc in E. apply app_inv_head in E.
  assert (NR : forall r, hdn numc (str e ++ [10] ++ r)) by (intros x; destruct (str e); exact N).
  apply (span numc) in E; auto using dec_num. destruct E as [E1 E2]. split; [apply dec_inj; auto|].
  apply app_inv_head in E2. apply (f_equal (@tl Z)) in E2. exact E2.
Qed.
Lemma stats_inj f f' : stats_ok f -> stats_ok f' -> fragPrintStats f = fragPrintStats f' ->
  stats_object f (u32 (z_ttlNanos f / 1000000)) = stats_object f' (u32 (z_ttlNanos f' / 1000000)).
Proof.
  intros H H' E. unfold stats_ok in H, H'. repeat (apply Forall_cons_iff in H; destruct H as [? H]). repeat (apply Forall_cons_iff in H'; destruct H' as [? H']).
  pose proof (millis_u32 f). pose proof (millis_u32 f'). unfold fragPrintStats in E. apply app_inv_head in E. apply app_inv_head in E.
  assert (N1 : hdn numc (str "," ++ [10])) by (cbn; unfold numc; lia). assert (N2 : hdn numc (str "" ++ [10])) by (cbn; unfold numc; lia).
  unfold stats_object.
  repeat (apply row_inj in E; [|assumption|assumption|assumption]; let Q := fresh in destruct E as [Q E]; rewrite Q; clear Q). reflexivity.
Qed.
